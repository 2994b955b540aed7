(** Properties C01-C04: event libraries. *)
From Verif Require Import Py Json ActiveSiteModel EventModel EventSpec EventProofs.

(* ---------------- C01 ---------------- *)
Theorem dependencies_exact : forall lib,
  exists lib', generate_event_dependencies lib = Ok lib' /\
    events lib' = events lib /\
    exact_dependencies (events lib) (get_dependent_events lib') /\
    (forall i, length (events lib) <= i -> get_dependent_events lib' i = []).
Proof. exact dependencies_exact_lemma. Qed.
Print Assumptions dependencies_exact.

Theorem dependencies_symmetric : forall lib lib' i j,
  generate_event_dependencies lib = Ok lib' ->
  i < length (events lib) -> j ∈ get_dependent_events lib' i ->
  i ∈ get_dependent_events lib' j.
Proof. exact dependencies_symmetric_lemma. Qed.
Print Assumptions dependencies_symmetric.

Theorem dependencies_reflexive : forall lib lib' i e s,
  generate_event_dependencies lib = Ok lib' ->
  events lib !! i = Some e -> touches e s -> i ∈ get_dependent_events lib' i.
Proof. exact dependencies_reflexive_lemma. Qed.
Print Assumptions dependencies_reflexive.

Definition ex_events : list event :=
  [ Event [3; 1] [7; 5; 5]; Event [0; 2] [4]; Event [6; 8] [1; 2] ]%Z.
Definition ex_lib : event_lib := fold_left add_event ex_events empty_lib.

Example dependencies_example :
  match generate_event_dependencies ex_lib with
  | Ok lib' => map (get_dependent_events lib') [0; 1; 2; 3] = [[0; 2]; [1; 2]; [0; 1; 2]; []]
  | Err _ => False
  end.
Proof. vm_compute. reflexivity. Qed.

(* ---------------- C02 ---------------- *)
Theorem site_index_exact : forall es s,
  get_events_involving_site (fold_left add_event es empty_lib) s = index_list 0 es s.
Proof. exact site_index_exact_lemma. Qed.
Print Assumptions site_index_exact.

Theorem site_index_members : forall es s i,
  i ∈ get_events_involving_site (fold_left add_event es empty_lib) s <->
  exists e, es !! i = Some e /\ touches e s.
Proof. exact site_index_members_lemma. Qed.
Print Assumptions site_index_members.

Theorem site_index_any_history : forall ops lib,
  run_ops ops = Ok lib ->
  events lib = List.concat (map added ops) /\
  forall s, get_events_involving_site lib s = index_list 0 (events lib) s.
Proof. exact run_ops_events. Qed.
Print Assumptions site_index_any_history.

Example site_index_example :
  map (get_events_involving_site ex_lib) [5; 1; 2; 9]%Z = [[0; 0]; [0; 2]; [1; 2]; []].
Proof. vm_compute. reflexivity. Qed.

(* ---------------- C03 ---------------- *)
Theorem library_roundtrip : forall lib o,
  index_metadata lib = Some (order_as_dict o) ->
  indices_in_range (events lib) (active_site_count o) ->
  NoDup (dkeys (site_to_events lib)) ->
  lib_from_dict (lib_as_dict lib) = Ok (reloaded lib).
Proof. exact lib_roundtrip_lemma. Qed.
Print Assumptions library_roundtrip.

Theorem built_library_roundtrip : forall ops lib o,
  run_ops ops = Ok lib ->
  snd (set_index_metadata lib o) = Ok tt ->
  lib_from_dict (lib_as_dict (fst (set_index_metadata lib o))) =
  Ok (reloaded (fst (set_index_metadata lib o))).
Proof. exact saved_library_reloads_lemma. Qed.
Print Assumptions built_library_roundtrip.

Theorem library_file_roundtrip : forall lib o,
  index_metadata lib = Some (order_as_dict o) ->
  indices_in_range (events lib) (active_site_count o) ->
  NoDup (dkeys (site_to_events lib)) ->
  exists payload lib', lib_to_payload lib = Ok payload /\
    lib_from_file payload = Ok lib' /\
    events lib' = events lib /\ site_to_events lib' = site_to_events lib /\
    index_metadata lib' = index_metadata lib /\
    match event_dependencies lib with
    | Some (r :: m) => event_dependencies lib' = Some (r :: m)
    | _ => exact_dependencies (events lib) (get_dependent_events lib')
    end.
Proof. exact file_roundtrip_lemma. Qed.
Print Assumptions library_file_roundtrip.

Theorem loaded_library_is_complete_and_in_range : forall payload lib,
  lib_from_file payload = Ok lib ->
  event_dependencies lib <> None /\
  exists meta o, index_metadata lib = Some meta /\ order_from_dict meta = Ok o /\
    indices_in_range (events lib) (active_site_count o).
Proof. exact from_file_has_dependencies_lemma. Qed.
Print Assumptions loaded_library_is_complete_and_in_range.

Theorem library_without_metadata_rejected : forall d,
  dget d "index_metadata"%string = None \/ dget d "index_metadata"%string = Some JNull ->
  lib_from_dict d = Err ValueError.
Proof. exact no_metadata_rejected_lemma. Qed.
Print Assumptions library_without_metadata_rejected.

Definition ex_order : order :=
  {| o_prim_count := 3; o_orig_count := 12; o_prim_active := [0; 2];
     o_a2o := [0; 1; 2; 3; 8; 9; 10; 11; 5]; o_a2p := [0; 0; 0; 0; 2; 2; 2; 2; 1];
     o_fixed := [4; 6; 7]; o_shape := [2; 2; 1]; o_species := ["Na+"; "Zr4+"; "Na+"];
     o_allowed := [["Na+"; "X0+"]; ["Zr4+"]; ["Na+"; "X0+"]]; o_fp := "fp"; o_template := None
  |}%Z%string.

Example roundtrip_example :
  let ops := map OpAdd ex_events ++ [OpGenerate] in
  match run_ops ops with
  | Ok lib => snd (set_index_metadata lib ex_order) = Ok tt /\
      is_ok (lib_from_file (JObj (lib_as_dict (fst (set_index_metadata lib ex_order))))) = true /\
      snd (set_index_metadata (add_event lib (Event [9; 0]%Z [])) ex_order) = Err IndexError
  | Err _ => False
  end.
Proof. vm_compute. repeat split. Qed.

(** A loaded dependency matrix is trusted, not checked: a payload whose matrix
    covers nothing is accepted and answers with no dependent events. *)
Theorem loaded_dependencies_exact_refuted :
  exists payload lib, lib_from_file payload = Ok lib /\
    ~ exact_dependencies (events lib) (get_dependent_events lib).
Proof. exact loaded_dependencies_trusted_lemma. Qed.
Print Assumptions loaded_dependencies_exact_refuted.

(* ---------------- C04 ---------------- *)
Theorem dependencies_describe_a_prefix : forall ops lib,
  run_ops ops = Ok lib ->
  match event_dependencies lib with
  | None => forall i, get_dependent_events lib i = []
  | Some m =>
      exists n, n <= length (events lib) /\
        exact_dependencies (take n (events lib)) (get_dependent_events lib) /\
        forall i, n <= i -> get_dependent_events lib i = []
  end.
Proof. exact get_dependent_events_history_lemma. Qed.
Print Assumptions dependencies_describe_a_prefix.

Theorem dependencies_after_generate_then_adds : forall ops es lib0 lib,
  run_ops (ops ++ [OpGenerate]) = Ok lib0 ->
  run_ops (ops ++ [OpGenerate] ++ map OpAdd es) = Ok lib ->
  events lib = events lib0 ++ es /\
  exact_dependencies (events lib0) (get_dependent_events lib) /\
  (forall i, length (events lib0) <= i -> get_dependent_events lib i = []).
Proof. exact generate_then_adds_lemma. Qed.
Print Assumptions dependencies_after_generate_then_adds.

Theorem dependencies_always_current_refuted :
  exists ops lib, run_ops ops = Ok lib /\ event_dependencies lib <> None /\
    ~ exact_dependencies (events lib) (get_dependent_events lib).
Proof. exact stale_after_add_lemma. Qed.
Print Assumptions dependencies_always_current_refuted.

Example stale_example :
  match run_ops [OpAdd (Event [0; 1]%Z []); OpGenerate; OpAdd (Event [1; 2]%Z [])] with
  | Ok lib => map (get_dependent_events lib) [0; 1] = [[0]; []]
  | Err _ => False
  end.
Proof. vm_compute. reflexivity. Qed.

(** A library is only written once its site order is recorded. *)
Theorem only_complete_libraries_are_saved : forall lib,
  (exists payload, lib_to_payload lib = Ok payload) <-> index_metadata lib <> None.
Proof. exact save_needs_metadata_lemma. Qed.
Print Assumptions only_complete_libraries_are_saved.
