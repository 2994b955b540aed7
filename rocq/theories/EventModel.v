(** Model of kmcpy/event/base.py: Event and EventLib. *)
From stdpp Require Import sorting.
From Verif Require Import Py Json ActiveSiteModel.

(** base.py:21-36.  Two events are equal when both tuples are equal (dataclass
    equality); [hop_state_codes], attached later by [HopStateLookup], is not a
    dataclass field and is kept outside this record. *)
Record event := Event {
  mobile_ion_indices : list Z;
  local_env_indices : list Z;
}.

Global Instance event_eq_dec : EqDecision event.
Proof. solve_decision. Defined.

(** The list built at base.py:174-180 and again at 247-253. *)
Definition sites_involved (e : event) : list Z :=
  mobile_ion_indices e ++ local_env_indices e.

(** base.py:92-95: [sites_array.sort()], any stable or unstable sort gives the
    same integer array. *)
Definition sort_sites (l : list Z) : list Z := merge_sort Z.le l.

(** base.py:117-141, the two-pointer loop.  The loop condition
    [i < len1 and j < len2] is the success of both reads. *)
Fixpoint arrays_intersect_loop (fuel : nat) (arr1 arr2 : list Z) (i j : nat)
  : result bool :=
  match fuel with
  | O => Err OutOfFuel
  | S fuel =>
      match arr1 !! i, arr2 !! j with
      | Some x, Some y =>
          if (x =? y)%Z then Ok true
          else if (x <? y)%Z then arrays_intersect_loop fuel arr1 arr2 (S i) j
          else arrays_intersect_loop fuel arr1 arr2 i (S j)
      | _, _ => Ok false
      end
  end.
Definition arrays_intersect (arr1 arr2 : list Z) : result bool :=
  arrays_intersect_loop (S (length arr1 + length arr2)) arr1 arr2 0 0.

(** base.py:103-109, the inner loop for one event [i]. *)
Fixpoint dependency_row (sites_i : list Z) (event_j : nat) (sorted : list (list Z))
  : result (list nat) :=
  match sorted with
  | [] => Ok []
  | sites_j :: rest =>
      let* b := arrays_intersect sites_i sites_j in
      let* row := dependency_row sites_i (S event_j) rest in
      Ok (if b then event_j :: row else row)
  end.

(** base.py:72-113. *)
Definition generate_event_dependency_matrix (events_site_list : list (list Z))
  : result (list (list nat)) :=
  let sorted := map sort_sites events_site_list in
  rmapM (fun sites_i => dependency_row sites_i 0 sorted) sorted.

(** base.py:160-164.  [index_metadata] is the serialised active-site order. *)
Record event_lib := EventLib {
  events : list event;
  event_dependencies : option (list (list nat));
  site_to_events : dict Z (list nat);
  index_metadata : option (list (string * json));
}.

Definition empty_lib : event_lib :=
  {| events := []; event_dependencies := None; site_to_events := [];
     index_metadata := None |}.

(** base.py:182-185. *)
Definition register_site (event_index : nat) (m : dict Z (list nat)) (site : Z)
  : dict Z (list nat) :=
  match dget m site with
  | Some l => dset m site (l ++ [event_index])
  | None => dset m site [event_index]
  end.

(** base.py:166-185. *)
Definition add_event (lib : event_lib) (e : event) : event_lib :=
  let event_index := length (events lib) in
  {| events := events lib ++ [e];
     event_dependencies := event_dependencies lib;
     site_to_events :=
       fold_left (register_site event_index) (sites_involved e) (site_to_events lib);
     index_metadata := index_metadata lib |}.

(** base.py:225-260. *)
Definition generate_event_dependencies (lib : event_lib) : result event_lib :=
  let* m := generate_event_dependency_matrix (map sites_involved (events lib)) in
  Ok {| events := events lib; event_dependencies := Some m;
        site_to_events := site_to_events lib; index_metadata := index_metadata lib |}.

(** base.py:368-371. *)
Definition clear_event_dependencies (lib : event_lib) : event_lib :=
  {| events := events lib; event_dependencies := None;
     site_to_events := site_to_events lib; index_metadata := index_metadata lib |}.

(** base.py:262-280, for a non-negative index (the only caller passes the result
    of [list.index]). *)
Definition get_dependent_events (lib : event_lib) (event_index : nat) : list nat :=
  match event_dependencies lib with
  | None => []
  | Some m => match m !! event_index with Some row => row | None => [] end
  end.

(** base.py:389-399. *)
Definition get_events_involving_site (lib : event_lib) (site : Z) : list nat :=
  match dget (site_to_events lib) site with Some l => l | None => [] end.

(** base.py:202-211. *)
Definition validate_event_indices (lib : event_lib) (o : order) : result unit :=
  rfold (fun _ e =>
           let* _ := validate_active_indices o (mobile_ion_indices e) in
           validate_active_indices o (local_env_indices e)) tt (events lib).

(** base.py:187-190: the metadata is stored before the indices are validated, so
    the library is returned next to the outcome. *)
Definition set_index_metadata (lib : event_lib) (o : order) : event_lib * result unit :=
  let lib' := {| events := events lib; event_dependencies := event_dependencies lib;
                 site_to_events := site_to_events lib;
                 index_metadata := Some (order_as_dict o) |} in
  (lib', validate_event_indices lib' o).

(** base.py:192-200. *)
Definition validate_index_metadata (lib : event_lib) (o : order) : result unit :=
  match index_metadata lib with
  | None => Err ValueError
  | Some meta =>
      let* _ := assert_same_order_dict o meta in
      validate_event_indices lib o
  end.

(** base.py:47-52. *)
Definition event_as_dict (e : event) : json :=
  JObj [ ("mobile_ion_indices", JList (map JInt (mobile_ion_indices e)));
         ("local_env_indices", JList (map JInt (local_env_indices e))) ]%string.

(** base.py:63-68 with JSON integers as tuple entries.  (The source keeps any
    entry; a non-integer one fails later in [validate_active_indices].) *)
Definition event_from_dict (j : json) : result event :=
  let* d := py_obj j in
  let* m := (match dget d "mobile_ion_indices"%string with
             | Some v => int_list v | None => Ok [] end) in
  let* l := (match dget d "local_env_indices"%string with
             | Some v => int_list v | None => Ok [] end) in
  Ok {| mobile_ion_indices := m; local_env_indices := l |}.

Definition nat_json (n : nat) : json := JInt (Z.of_nat n).

(** base.py:282-294. *)
Definition lib_as_dict (lib : event_lib) : list (string * json) :=
  [ ("events", JList (map event_as_dict (events lib)));
    ("event_dependencies",
      match event_dependencies lib with
      | None => JNull
      | Some m => JList (map (fun row => JList (map nat_json row)) m)
      end);
    ("site_to_events",
      JObj (map (fun kv => (py_str_int (fst kv), JList (map nat_json (snd kv))))
                (site_to_events lib)));
    ("index_metadata",
      match index_metadata lib with None => JNull | Some d => JObj d end) ]%string.

(** A stored event index: [int(idx)], which the model requires to be
    non-negative (negative entries are not modelled). *)
Definition json_nat (j : json) : result nat :=
  let* z := py_int j in
  if (z <? 0)%Z then Err ValueError else Ok (Z.to_nat z).

(** base.py:305-339. *)
Definition lib_from_dict (d : list (string * json)) : result event_lib :=
  match dget d "index_metadata"%string with
  | None | Some JNull => Err ValueError
  | Some meta =>
      let* meta := py_obj meta in
      let* o := order_from_dict meta in
      let* evs := (let* j := dgetitem d "events"%string in
                   let* l := py_list j in rmapM event_from_dict l) in
      let lib0 := {| events := evs; event_dependencies := None;
                     site_to_events := []; index_metadata := Some meta |} in
      let* _ := validate_event_indices lib0 o in
      let* deps :=
        (match dget d "event_dependencies"%string with
         | None => Ok None
         | Some j =>
             if truthy j then
               let* l := py_list j in
               let* m := rmapM (fun r => let* r := py_list r in rmapM json_nat r) l in
               Ok (Some m)
             else Ok None
         end) in
      let* s2e :=
        (match dget d "site_to_events"%string with
         | None => Ok []
         | Some j =>
             let* l := py_obj j in
             rmapM (fun kv =>
                      let* k := py_int_str (fst kv) in
                      let* v := py_list (snd kv) in
                      let* v := rmapM json_nat v in
                      Ok (k, v)) l
         end) in
      Ok {| events := evs; event_dependencies := deps;
            site_to_events := dof_pairs s2e; index_metadata := Some meta |}
  end.

(** base.py:296-303: the payload written to disk. *)
Definition lib_to_payload (lib : event_lib) : result json :=
  match index_metadata lib with
  | None => Err ValueError
  | Some _ => Ok (JObj (lib_as_dict lib))
  end.

(** base.py:342-366 on the loaded payload. *)
Definition lib_from_file (payload : json) : result event_lib :=
  match payload with
  | JList _ => Err ValueError
  | _ =>
      let* d := py_obj payload in
      let* lib := lib_from_dict d in
      match event_dependencies lib with
      | Some _ => Ok lib
      | None => generate_event_dependencies lib
      end
  end.

(** base.py:401-423, the integer entries of the statistics. *)
Definition dependency_totals (lib : event_lib) : option (nat * nat * nat) :=
  match event_dependencies lib with
  | None => None
  | Some m =>
      let lens := map length m in
      Some (list_sum lens, foldr Nat.max 0 lens,
            match lens with [] => 0 | x :: xs => foldr Nat.min x xs end)
  end.

(** Library operations, for claims about histories. *)
Inductive lib_op :=
  | OpAdd (e : event)
  | OpGenerate
  | OpClear.

Definition lib_step (r : result event_lib) (op : lib_op) : result event_lib :=
  let* lib := r in
  match op with
  | OpAdd e => Ok (add_event lib e)
  | OpGenerate => generate_event_dependencies lib
  | OpClear => Ok (clear_event_dependencies lib)
  end.

Definition run_ops (ops : list lib_op) : result event_lib :=
  fold_left lib_step ops (Ok empty_lib).
