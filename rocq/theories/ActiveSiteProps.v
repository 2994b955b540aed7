(** Properties C30-C33: active-site orders, states and checkpoints. *)
From Coq Require Import QArith Sorted Ascii.
From Verif Require Import Py Json ActiveSiteModel ActiveSiteSpec ActiveSiteProofs
  EventModel EventProofs StateModel StateProofs.
Local Open Scope nat_scope.

(* ---------------- C30 ---------------- *)
Theorem active_sites_partition : forall parse fp template mapping shape o,
  built parse fp template mapping shape o ->
  o_orig_count o = (o_prim_count o * cells (o_shape o))%Z /\
  splits (o_orig_count o) (o_a2o o) (o_fixed o).
Proof. exact order_partition_lemma. Qed.
Print Assumptions active_sites_partition.

Theorem active_iff_several_species : forall parse fp template mapping shape o k,
  built parse fp template mapping shape o ->
  (0 <= k < o_orig_count o)%Z ->
  (k ∈ o_a2o o <->
   exists labels, o_allowed o !! Z.to_nat (k / cells (o_shape o)) = Some labels /\
                  1 < length labels).
Proof. exact order_active_iff_lemma. Qed.
Print Assumptions active_iff_several_species.

Theorem original_and_active_inverse : forall parse fp template mapping shape o k a,
  built parse fp template mapping shape o ->
  (dget (original_to_active o) k = Some a <-> o_a2o o !! a = Some k).
Proof. exact order_inverse_lemma. Qed.
Print Assumptions original_and_active_inverse.

Theorem allowed_species_from_first_match : forall parse fp template mapping shape o p sp,
  built parse fp template mapping shape o ->
  template !! p = Some sp ->
  exists before key value after key' allowed,
    mapping = before ++ (key, value) :: after /\
    normalize_species parse key = Ok key' /\
    normalize_allowed_species parse value = Ok allowed /\
    species_equivalent (SObj sp) (SObj key') = true /\
    (forall kv k', kv ∈ before -> normalize_species parse (fst kv) = Ok k' ->
       species_equivalent (SObj sp) (SObj k') = false) /\
    o_allowed o !! p = Some (map (fun s => species_label (SObj s)) allowed).
Proof. exact order_allowed_lemma. Qed.
Print Assumptions allowed_species_from_first_match.

(** A fingerprint check succeeds exactly for the same order, when the hash does not
    collide on the two orders. *)
Theorem fingerprint_identifies_order : forall parse fp t1 m1 s1 o1 t2 m2 s2 o2,
  (fp (payload_of o1) = fp (payload_of o2) -> payload_of o1 = payload_of o2) ->
  built parse fp t1 m1 s1 o1 -> built parse fp t2 m2 s2 o2 ->
  (assert_same_order o1 o2 = Ok tt <-> same_order o1 o2).
Proof. exact fingerprint_identifies_lemma. Qed.
Print Assumptions fingerprint_identifies_order.

(** For orders read from a payload the check says nothing: the stored fingerprint is
    trusted. *)
Theorem fingerprint_identifies_loaded_order_refuted :
  exists o1 d o2, order_from_dict d = Ok o2 /\ assert_same_order_dict o1 d = Ok tt /\
    o_a2o o1 <> o_a2o o2.
Proof. exact fingerprint_trusted_lemma. Qed.
Print Assumptions fingerprint_identifies_loaded_order_refuted.

(** Filtering a structure by position: kept sites come in increasing active index,
    each at its own template position, and every input site on an active position is
    kept. *)
Theorem filter_by_position_sound : forall (S : Type) (distances : S -> list Q) tol o structure out,
  NoDup (o_a2o o) ->
  Z.of_nat (length structure) <> o_orig_count o ->
  filter_active_structure distances tol o false structure = Ok out ->
  StronglySorted lt (map snd out) /\
  (forall s a, (s, a) ∈ out ->
     s ∈ structure /\ exists k, o_a2o o !! a = Some k /\ placed distances tol s k) /\
  (forall s, s ∈ structure -> exists k, placed distances tol s k /\
     match dget (original_to_active o) k with
     | Some a => (s, a) ∈ out
     | None => True
     end).
Proof. exact @filter_by_position_lemma. Qed.
Print Assumptions filter_by_position_sound.

Definition ex_parse (s : string) : result species := Ok (Species s (Some s) None).
Definition ex_fp (p : fp_payload) : string :=
  if bool_decide (f_shape p = [2; 1; 1]%Z) then "a"%string else "b"%string.
Definition ex_template : list species :=
  [Species "Na+" (Some "Na") None; Species "Zr4+" (Some "Zr") None;
   Species "Na+" (Some "Na") None]%string.
Definition ex_mapping : list (spval * allowedval) :=
  [(SStr "Na", AList [SStr "Na"; SStr "X"]); (SStr "Zr", AOne (SStr "Zr"))]%string.
Definition ex_built := from_structure_and_mapping ex_parse ex_fp ex_template ex_mapping.

Example built_example :
  match ex_built (Some [2; 1; 1]%Z), ex_built None with
  | Ok o, Ok o1 =>
      built ex_parse ex_fp ex_template ex_mapping (Some [2; 1; 1]%Z) o /\
      o_a2o o = [0; 1; 4; 5]%Z /\ o_fixed o = [2; 3]%Z /\ o_a2p o = [0; 0; 2; 2]%Z /\
      o_allowed o = [["Na"; "X"]; ["Zr"]; ["Na"; "X"]]%string /\
      assert_same_order o o1 = Err ValueError /\
      filter_active_structure (fun i => map (fun j => if decide (i = j) then 0%Q else 1%Q) (seq 0 6))
        (1#100)%Q o false [5; 2; 0] = Ok [(0, 0); (5, 3)] /\
      is_ok (filter_active_structure (fun i => map (fun j => if decide (i = j) then 0%Q else 1%Q)
        (seq 0 6)) (1#100)%Q o false [5; 2; 5]) = false
  | _, _ => False
  end.
Proof. vm_compute. repeat split. Qed.

(* ---------------- C31 ---------------- *)
Theorem supercell_sites_enumerated : forall n n1 n2 n3 k p a b c,
  make_kmc_supercell n (n1, n2, n3) !! k = Some (SSite p (a, b, c)) <->
  p < n /\ a < n1 /\ b < n2 /\ c < n3 /\ k = ((p * n1 + a) * n2 + b) * n3 + c.
Proof. exact supercell_lookup_lemma. Qed.
Print Assumptions supercell_sites_enumerated.

Theorem supercell_size : forall n n1 n2 n3,
  length (make_kmc_supercell n (n1, n2, n3)) = n * (n1 * n2 * n3).
Proof. exact supercell_length. Qed.
Print Assumptions supercell_size.

Theorem active_sites_know_their_primitive_site : forall parse fp template mapping shape o active k,
  built parse fp template mapping shape o ->
  o_a2o o !! active = Some k ->
  o_a2p o !! active = Some (k / cells (o_shape o))%Z.
Proof. exact order_primitive_lemma. Qed.
Print Assumptions active_sites_know_their_primitive_site.

Theorem active_order_lengths : forall parse fp template mapping shape o,
  built parse fp template mapping shape o ->
  length (o_a2p o) = active_site_count o /\
  Z.of_nat (length (o_species o)) = o_prim_count o /\
  Z.of_nat (length (o_allowed o)) = o_prim_count o /\
  0 < active_site_count o.
Proof. exact order_lengths_lemma. Qed.
Print Assumptions active_order_lengths.

Example supercell_example :
  make_kmc_supercell 2 (1, 2, 2) !! 6 = Some (SSite 1 (0, 1, 0)) /\
  length (make_kmc_supercell 2 (1, 2, 2)) = 8.
Proof. vm_compute. split; reflexivity. Qed.

(* ---------------- C32 ---------------- *)
Theorem select_active_values_keeps_identity :
  forall (A : Type) parse fp template mapping shape o (values : list A),
  built parse fp template mapping shape o ->
  (length values = active_site_count o -> select_active_values o values = Ok values) /\
  (Z.of_nat (length values) = o_orig_count o ->
     exists out, select_active_values o values = Ok out /\ length out = active_site_count o /\
       forall a k, o_a2o o !! a = Some k -> out !! a = values !! Z.to_nat k) /\
  (length values <> active_site_count o -> Z.of_nat (length values) <> o_orig_count o ->
     select_active_values o values = Err ValueError).
Proof. exact @select_active_values_lemma. Qed.
Print Assumptions select_active_values_keeps_identity.

(** Initial-state payloads with [select_sites]: the selected primitive sites' blocks,
    in the order they are listed. *)
Theorem selected_rows_are_site_blocks : forall raw size p row,
  0 < size -> length raw mod size = 0 -> (0 <= p)%Z ->
  (reshaped_row raw size p = Ok row <->
   (p < Z.of_nat (length raw / size))%Z /\ length row = size /\
   forall c, c < size -> row !! c = raw !! (Z.to_nat p * size + c)).
Proof. exact reshaped_row_spec. Qed.
Print Assumptions selected_rows_are_site_blocks.

(** When the selected sites are the active primitive sites, both loading routes give
    the same occupations. *)
Theorem select_sites_agrees_with_active_order : forall parse fp template mapping shape o raw,
  built parse fp template mapping shape o ->
  Z.of_nat (length raw) = o_orig_count o ->
  initial_occupation raw (Some (o_shape o)) (Some (o_prim_active o)) None =
  initial_occupation raw None None (Some o).
Proof. exact select_sites_agrees_lemma. Qed.
Print Assumptions select_sites_agrees_with_active_order.

Example select_example :
  match ex_built (Some [2; 1; 1]%Z) with
  | Ok o => select_active_values o [10; 11; 12; 13; 14; 15] = Ok [10; 11; 14; 15] /\
      select_active_values o [1; 2; 3; 4] = Ok [1; 2; 3; 4] /\
      select_active_values o [1; 2] = Err ValueError /\
      initial_occupation [10; 11; 12; 13; 14; 15]%Z (Some [2; 1; 1]%Z) (Some [0; 2]%Z) None
        = Ok [10; 11; 14; 15]%Z
  | Err _ => False
  end.
Proof. vm_compute. repeat split. Qed.

(* ---------------- C33 ---------------- *)
Theorem order_payload_roundtrip : forall o,
  order_from_dict (order_as_dict o) =
  Ok {| o_prim_count := o_prim_count o; o_orig_count := o_orig_count o;
        o_prim_active := o_prim_active o; o_a2o := o_a2o o; o_a2p := o_a2p o;
        o_fixed := o_fixed o; o_shape := o_shape o; o_species := o_species o;
        o_allowed := o_allowed o; o_fp := o_fp o; o_template := None |}.
Proof. exact order_roundtrip. Qed.
Print Assumptions order_payload_roundtrip.

Theorem state_payload_roundtrip : forall s, state_from_dict (state_as_dict s) = Ok s.
Proof. exact state_roundtrip_lemma. Qed.
Print Assumptions state_payload_roundtrip.

Theorem checkpoint_roundtrip : forall s p f,
  path_name p <> ext_json ->
  save_checkpoint s p = Ok f -> load_checkpoint p f = Ok s.
Proof. exact checkpoint_roundtrip_lemma. Qed.
Print Assumptions checkpoint_roundtrip.

(** Without the condition on the name it is false: a checkpoint written to a file
    called ".json" cannot be read back. *)
Theorem checkpoint_roundtrip_any_name_refuted :
  exists p f, forall s : state Q, occupations s = [1%Z] -> time s = 0%Q -> step s = 0%Z ->
    save_checkpoint s p = Ok f /\ load_checkpoint p f = Err ValueError.
Proof. exact dot_json_refuted_lemma. Qed.
Print Assumptions checkpoint_roundtrip_any_name_refuted.

Example checkpoint_example :
  let s := State [0; 1; 1]%Z (5#2)%Q 7%Z in
  let p := ["a"; "/"; "b"; "."; "c"; "."; "j"; "s"; "o"; "n"]%char in
  match save_checkpoint s p with
  | Ok f => load_checkpoint p f = Ok s
  | Err _ => False
  end.
Proof. vm_compute. reflexivity. Qed.
