(** Properties of structures read from CIF files (C88). *)
From Coq Require Import QArith Qround.
From Verif Require Import Py Json MatcherModel TrackerModel CifModel CifSpec CifProofs.
Local Open Scope Q_scope.

(** Reading a block: the sites are the images of the written positions, each with what the rows at
    its position say; a position over-filled, or equivalent positions written differently, are refused. *)
Theorem sites_are_the_crystal species_leb primitive_cell tol occupancy_tol b :
  space_group (b_operations b) -> separated (b_operations b) tol (map row_coord (rows_read (b_rows b))) ->
  written_once (b_operations b) (b_rows b) -> rows_read (b_rows b) <> [] ->
  (forall x, x ∈ positions (b_rows b) -> ~ overfull occupancy_tol (b_rows b) x) ->
  exists sites, labeled_structure species_leb primitive_cell tol occupancy_tol false false true b = Ok (Some sites)
    /\ crystal (b_operations b) tol occupancy_tol (b_rows b) sites.
Proof. exact (structure_ok species_leb primitive_cell tol occupancy_tol b). Qed.
Print Assumptions sites_are_the_crystal.
Theorem overfull_positions_are_refused species_leb primitive_cell tol occupancy_tol b x :
  space_group (b_operations b) -> separated (b_operations b) tol (map row_coord (rows_read (b_rows b))) ->
  written_once (b_operations b) (b_rows b) -> x ∈ positions (b_rows b) -> overfull occupancy_tol (b_rows b) x -> forall primitive symmetrized,
  labeled_structure species_leb primitive_cell tol occupancy_tol false primitive symmetrized b = Err ValueError.
Proof. exact (structure_full species_leb primitive_cell tol occupancy_tol b x). Qed.
Print Assumptions overfull_positions_are_refused.
(** The crystal has the symmetry of the file, no two sites at one position, and every image of every row. *)
Theorem crystal_is_symmetric tol occupancy_tol ops rows sites s op :
  space_group ops -> separated ops tol (map row_coord (rows_read rows)) -> crystal ops tol occupancy_tol rows sites ->
  s ∈ sites -> op ∈ ops ->
  exists s', s' ∈ sites /\ same (s_coord s') (op (s_coord s)) /\ s_label s' = s_label s /\ forall el, amount (s_comp s') el == amount (s_comp s) el.
Proof. exact (crystal_symmetric tol occupancy_tol ops rows sites s op). Qed.
Print Assumptions crystal_is_symmetric.
Theorem crystal_sites_are_apart tol occupancy_tol ops rows sites i j s s' :
  space_group ops -> separated ops tol (map row_coord (rows_read rows)) -> written_once ops rows -> crystal ops tol occupancy_tol rows sites ->
  sites !! i = Some s -> sites !! j = Some s' -> same (s_coord s) (s_coord s') -> i = j.
Proof. exact (crystal_distinct tol occupancy_tol ops rows sites i j s s'). Qed.
Print Assumptions crystal_sites_are_apart.
Theorem crystal_has_every_image tol occupancy_tol ops rows sites r op : 0 < tol -> crystal ops tol occupancy_tol rows sites ->
  r ∈ rows_read rows -> op ∈ ops ->
  exists s x, s ∈ sites /\ x ∈ positions rows /\ equal x (row_coord r) /\ tells occupancy_tol rows x s /\ within tol (s_coord s) (op x)
    /\ exists op', op' ∈ ops /\ same (s_coord s) (op' x).
Proof. exact (crystal_has tol occupancy_tol ops rows sites r op). Qed.
Print Assumptions crystal_has_every_image.
Theorem crystal_sites_are_in_the_cell tol occupancy_tol ops rows sites s : crystal ops tol occupancy_tol rows sites -> s ∈ sites -> in_cell (s_coord s).
Proof. exact (crystal_in_cell tol occupancy_tol ops rows sites s). Qed.
Print Assumptions crystal_sites_are_in_the_cell.
(** The label of a row and the number in the orbit name a site, if the labels differ. *)
Theorem label_and_number_name_a_site tol occupancy_tol ops rows sites i j s s' :
  NoDup (map (fun x => label_at x rows) (positions rows)) -> crystal ops tol occupancy_tol rows sites ->
  sites !! i = Some s -> sites !! j = Some s' -> s_label s = s_label s' -> s_sequence s = s_sequence s' -> i = j.
Proof. exact (crystal_named tol occupancy_tol ops rows sites i j s s'). Qed.
Print Assumptions label_and_number_name_a_site.

Definition no_primitive (l : list site) : list site := l.
Definition keep_order (a b : composition) : bool := true.
Example good_file : exists sites, labeled_structure keep_order no_primitive cif_tol 1 false false true good_block = Ok (Some sites)
  /\ crystal (b_operations good_block) cif_tol 1 (b_rows good_block) sites /\ length sites = 3%nat
  /\ map s_label sites = ["Na1K1"; "Na1K1"; "Cl1"]%string /\ map s_sequence sites = [0; 1; 0]%nat.
Proof.
  destruct (sites_are_the_crystal keep_order no_primitive cif_tol 1 good_block inversion_group good_separated good_once) as (sites & E & H).
  - by rewrite good_rows.
  - intros x Hx. vm_compute in Hx. apply elem_of_cons in Hx as [->|Hx]; [by vm_compute|]. apply elem_of_cons in Hx as [->|Hx]; [by vm_compute|by apply elem_of_nil in Hx].
  - exists sites. split; [done|]. split; [done|]. vm_compute in E. injection E as <-. done.
Qed.
Example good_labels : NoDup (map (fun x => label_at x (b_rows good_block)) (positions (b_rows good_block))).
Proof. vm_compute. repeat constructor; set_solver. Qed.
Example overfull_file : forall primitive symmetrized,
  labeled_structure keep_order no_primitive cif_tol 1 false primitive symmetrized (Block [op_id] [Row "Na1" (Some "Na"%string) p0 (3 # 4); Row "K1" (Some "K"%string) p0 (1 # 2)]) = Err ValueError.
Proof. by intros [] []. Qed.

(** Equivalent positions written differently make the block unreadable: the labels are looked up
    under the coordinates of the row and not of the entry that was found. *)
Theorem equivalent_positions_written_differently species_leb primitive_cell tol occupancy_tol b magnetic primitive symmetrized :
  space_group (b_operations b) -> separated (b_operations b) tol (map row_coord (rows_read (b_rows b))) ->
  ~ written_once (b_operations b) (b_rows b) ->
  labeled_structure species_leb primitive_cell tol occupancy_tol magnetic primitive symmetrized b = Err KeyError.
Proof. exact (structure_twice species_leb primitive_cell tol occupancy_tol b magnetic primitive symmetrized). Qed.
Print Assumptions equivalent_positions_written_differently.
Theorem shared_positions_can_be_read_refuted : exists b,
  space_group (b_operations b) /\ separated (b_operations b) cif_tol (map row_coord (rows_read (b_rows b)))
  /\ rows_read (b_rows b) <> [] /\ (forall x, x ∈ positions (b_rows b) -> ~ overfull 1 (b_rows b) x)
  /\ load_labeled_structure keep_order no_primitive cif_tol 1 false false false [Ok b] = Err ValueError.
Proof.
  exists twice_block. split; [exact inversion_group|]. split; [exact twice_separated|]. split; [by rewrite twice_rows|]. split; [|done].
  intros x Hx. vm_compute in Hx. apply elem_of_cons in Hx as [->|Hx]; [by vm_compute|]. apply elem_of_cons in Hx as [->|Hx]; [by vm_compute|by apply elem_of_nil in Hx].
Qed.
Print Assumptions shared_positions_can_be_read_refuted.
(** Equal labels at different positions are ambiguous. *)
Theorem label_and_number_always_name_a_site_refuted : exists b sites s s',
  labeled_structure keep_order no_primitive cif_tol 1 false false true b = Ok (Some sites)
  /\ sites !! 0%nat = Some s /\ sites !! 1%nat = Some s' /\ s_label s = s_label s' /\ s_sequence s = s_sequence s' /\ ~ same (s_coord s) (s_coord s').
Proof.
  exists (Block [op_id] [Row "Na1" (Some "Na"%string) p0 1; Row "Na1" (Some "Na"%string) p1 1]). do 3 eexists.
  split; [vm_compute; reflexivity|]. split; [reflexivity|]. split; [reflexivity|]. split; [done|]. split; [done|].
  apply (apart op_id). vm_compute. reflexivity.
Qed.
Print Assumptions label_and_number_always_name_a_site_refuted.
(** The number of a site in its orbit depends on the order of the operations in the file. *)
Theorem numbers_do_not_depend_on_the_order_of_operations_refuted : exists b b' sites sites' s s',
  b_rows b = b_rows b' /\ b_operations b ≡ₚ b_operations b'
  /\ labeled_structure keep_order no_primitive cif_tol 1 false false true b = Ok (Some sites)
  /\ labeled_structure keep_order no_primitive cif_tol 1 false false true b' = Ok (Some sites')
  /\ s ∈ sites /\ s' ∈ sites' /\ s_label s = s_label s' /\ s_sequence s = s_sequence s' /\ ~ same (s_coord s) (s_coord s').
Proof.
  exists (Block [op_id; op_inv] [Row "Na1" (Some "Na"%string) p1 1]), (Block [op_inv; op_id] [Row "Na1" (Some "Na"%string) p1 1]). do 4 eexists.
  split; [done|]. split; [by apply perm_swap|]. split; [vm_compute; reflexivity|]. split; [vm_compute; reflexivity|].
  split; [left|]. split; [left|]. split; [done|]. split; [done|]. apply (apart op_id). vm_compute. reflexivity.
Qed.
Print Assumptions numbers_do_not_depend_on_the_order_of_operations_refuted.

(** Sorting the structure by species keeps the sites, and not the place that each one records. *)
Theorem sorting_keeps_the_sites species_leb primitive_cell tol occupancy_tol b sites :
  labeled_structure species_leb primitive_cell tol occupancy_tol false false true b = Ok (Some sites) ->
  exists sites', labeled_structure species_leb primitive_cell tol occupancy_tol false false false b = Ok (Some sites') /\ sites' ≡ₚ sites.
Proof. exact (structure_sorted species_leb primitive_cell tol occupancy_tol b sites). Qed.
Print Assumptions sorting_keeps_the_sites.
Definition chlorine_last (a b : composition) : bool := negb (bool_decide (dkeys a = ["Cl"%string])) || bool_decide (dkeys b = ["Cl"%string]).
Theorem recorded_place_is_the_place_refuted : exists b sites i s,
  load_labeled_structure chlorine_last no_primitive cif_tol 1 false false false [Ok b] = Ok sites /\ sites !! i = Some s /\ s_local s <> i.
Proof.
  exists (Block [op_id] [Row "Cl1" (Some "Cl"%string) p0 1; Row "Na1" (Some "Na"%string) p1 1]). eexists _, 0%nat, _.
  split; [vm_compute; reflexivity|]. split; [reflexivity|]. done.
Qed.
Print Assumptions recorded_place_is_the_place_refuted.
Example sorting_keeps_the_sites_example :
  exists sites, labeled_structure chlorine_last no_primitive cif_tol 1 false false true (Block [op_id] [Row "Cl1" (Some "Cl"%string) p0 1; Row "Na1" (Some "Na"%string) p1 1]) = Ok (Some sites)
    /\ length sites = 2%nat.
Proof. eexists. split; [vm_compute; reflexivity|]. done. Qed.

(** Files of several blocks: the first block that can be read is loaded, and those before it are left out. *)
Theorem first_readable_block_is_loaded species_leb primitive_cell tol occupancy_tol magnetic primitive symmetrized blocks sites :
  load_labeled_structure species_leb primitive_cell tol occupancy_tol magnetic primitive symmetrized blocks = Ok sites ->
  exists pre b post, blocks = (pre ++ b :: post)%list
    /\ Forall (fun b => left_out (rbind b (labeled_structure species_leb primitive_cell tol occupancy_tol magnetic primitive symmetrized))) pre
    /\ rbind b (labeled_structure species_leb primitive_cell tol occupancy_tol magnetic primitive symmetrized) = Ok (Some sites).
Proof. exact (load_first species_leb primitive_cell tol occupancy_tol magnetic primitive symmetrized blocks sites). Qed.
Print Assumptions first_readable_block_is_loaded.
Theorem no_readable_block species_leb primitive_cell tol occupancy_tol magnetic primitive symmetrized blocks :
  Forall (fun b => left_out (rbind b (labeled_structure species_leb primitive_cell tol occupancy_tol magnetic primitive symmetrized))) blocks ->
  load_labeled_structure species_leb primitive_cell tol occupancy_tol magnetic primitive symmetrized blocks = Err ValueError.
Proof. exact (load_none species_leb primitive_cell tol occupancy_tol magnetic primitive symmetrized blocks). Qed.
Print Assumptions no_readable_block.
Theorem damaged_block_is_reported_refuted : exists b b' sites,
  rbind b (labeled_structure keep_order no_primitive cif_tol 1 false false false) = Err ValueError
  /\ load_labeled_structure keep_order no_primitive cif_tol 1 false false false [b; b'] = Ok sites.
Proof. exists (Err ValueError), (Ok good_block). eexists. split; [done|]. vm_compute. reflexivity. Qed.
Print Assumptions damaged_block_is_reported_refuted.
Example no_readable_block_example : load_labeled_structure keep_order no_primitive cif_tol 1 false false false [Ok twice_block; Err KeyError] = Err ValueError.
Proof. reflexivity. Qed.
(** Magnetic files cannot be read. *)
Theorem magnetic_files_are_refused species_leb primitive_cell tol occupancy_tol primitive symmetrized blocks sites :
  load_labeled_structure species_leb primitive_cell tol occupancy_tol true primitive symmetrized blocks <> Ok sites.
Proof. exact (load_magnetic species_leb primitive_cell tol occupancy_tol primitive symmetrized blocks sites). Qed.
Print Assumptions magnetic_files_are_refused.
Example magnetic_files_example : load_labeled_structure keep_order no_primitive cif_tol 1 true false false [Ok good_block] = Err TypeError.
Proof. reflexivity. Qed.
(** A primitive cell of a symmetrised structure cannot be asked for. *)
Theorem primitive_and_symmetrized species_leb primitive_cell tol occupancy_tol magnetic blocks :
  load_labeled_structure species_leb primitive_cell tol occupancy_tol magnetic true true blocks = Err ValueError.
Proof. reflexivity. Qed.
Print Assumptions primitive_and_symmetrized.
