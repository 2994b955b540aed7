(** C94: gathering the results of many runs. *)
From Coq Require Import QArith Ascii Sorted Permutation Lia Lqa.
From Verif Require Import Py PyLemmas Json MatcherModel CallbackModel CallbackSpec CallbackProofs TrackerModel TransportModel
  GatherModel GatherSpec GatherProofs.
Local Open Scope string_scope.

(** Files called stem_composition_number.csv.gz: the table has the rows of every file, in the order of the files, and
    each row carries its own data, the number of its row in its own file, and the composition and number of its own file. *)
Theorem gathered_table_has_every_run parse_float parse_int read_csv locations runs : locations <> [] ->
  Forall2 (fun l run => result_file parse_float parse_int read_csv l (fst (fst run)) (snd (fst run)) (snd run)) locations runs ->
  (forall run, run ∈ runs -> Forall (fun r => dget r "n_pass" = None) (snd run)) ->
  exists out, gather_kmc parse_float parse_int read_csv locations = Ok out /\ table_of runs out.
Proof. exact (gather_ok parse_float parse_int read_csv locations runs). Qed.
Print Assumptions gathered_table_has_every_run.

(** One file whose name has fewer than three parts, as the file of a run without a label, stops the gathering. *)
Theorem unlabelled_file_stops_the_gathering parse_float parse_int read_csv locations location name parts :
  location ∈ locations -> location = name ++ ".csv.gz" -> (forall u v, name <> u ++ ".csv.gz" ++ v) ->
  name = joined "_" parts -> parts <> [] -> Forall (without "_") parts -> length parts <= 2 ->
  forall out, gather_kmc parse_float parse_int read_csv locations <> Ok out.
Proof. exact (gather_err parse_float parse_int read_csv locations location name parts). Qed.
Print Assumptions unlabelled_file_stops_the_gathering.
Theorem gathering_nothing_fails parse_float parse_int read_csv read_structure template :
  gather_kmc parse_float parse_int read_csv [] = Err ValueError
  /\ gather_mc parse_float parse_int read_structure [] template = Err IndexError.
Proof. split; reflexivity. Qed.
Print Assumptions gathering_nothing_fails.

(** Further parts of a name are ignored. *)
Theorem only_second_and_third_part_label parse_float parse_int a c n rest x i :
  Forall (without "_") [a; c; n] -> parse_float c = Ok x -> parse_int n = Ok i ->
  labels parse_float parse_int (a ++ "_" ++ c ++ "_" ++ n ++ "_" ++ rest) = Ok (x, i).
Proof. exact (labels_long parse_float parse_int a c n rest x i). Qed.
Print Assumptions only_second_and_third_part_label.

(** Occupations: when the sites of the structure are at sites of the template or apart from them, and no symbol is a
    proper part of another one, the occupation has one entry for each site of the template, and it is -1 exactly at the
    sites where the structure has the same species. *)
Theorem occupation_is_where_the_species_agree read_structure file template s : read_structure file = Ok s ->
  let casm := List.filter (fun c => negb (framework (fst c))) (c_sites s) in
  comparable (c_lattice template) casm (c_sites template) ->
  (forall c t, c ∈ casm -> t ∈ c_sites template -> ~ proper_part (fst c) (fst t)) ->
  exists occ, get_occ read_structure file template = Ok occ /\ length occ = length (c_sites template)
    /\ forall j t, c_sites template !! j = Some t -> exists o, occ !! j = Some o /\ (o = 1 \/ o = -1)%Z
         /\ (o = (-1)%Z <-> exists c, c ∈ casm /\ fst c = fst t /\ same_position (snd c) (snd t)).
Proof. exact (get_occ_ok read_structure file template s). Qed.
Print Assumptions occupation_is_where_the_species_agree.

(** The table of Monte Carlo runs has one row for each directory, with the labels of its own name and the occupation of
    its own final structure, in the order of composition and number. *)
Theorem monte_carlo_table_has_every_run read_structure parse_float parse_int locations template rows : locations <> [] ->
  Forall2 (fun l row => run_directory parse_float parse_int l (m_comp row) (m_index row)
    /\ get_occ read_structure (l ++ "/conditions.0/trajectory/POSCAR.final") template = Ok (m_occ row)) locations rows ->
  exists out, gather_mc parse_float parse_int read_structure locations template = Ok out
    /\ Permutation out rows /\ StronglySorted mc_before out.
Proof. exact (gather_mc_ok read_structure parse_float parse_int locations template rows). Qed.
Print Assumptions monte_carlo_table_has_every_run.

(** ** What does not hold, and instances *)
Definition demo_float (s : string) : result Q :=
  if String.eqb s "0.5" then Ok (1 # 2) else if String.eqb s "0.25" then Ok (1 # 4) else if String.eqb s "7" then Ok (7 # 1) else Err ValueError.
Definition demo_int (s : string) : result Z :=
  if String.eqb s "3" then Ok 3%Z else if String.eqb s "2" then Ok 2%Z else Err ValueError.
Definition demo_csv (s : string) : result (list (dict string json)) :=
  if String.eqb s "results_0.25_2.csv.gz" then Ok [[("D_J", JInt 10)]; [("D_J", JInt 11)]] else Ok [[("D_J", JInt 20)]].
Example gather_example :
  gather_kmc demo_float demo_int demo_csv ["results_0.5_3.csv.gz"; "results_0.25_2.csv.gz"]
  = Ok [[("n_pass", JInt 0); ("D_J", JInt 20); ("comp", JFloat (1 # 2)); ("structure_index", JInt 3)];
        [("n_pass", JInt 0); ("D_J", JInt 10); ("comp", JFloat (1 # 4)); ("structure_index", JInt 2)];
        [("n_pass", JInt 1); ("D_J", JInt 11); ("comp", JFloat (1 # 4)); ("structure_index", JInt 2)]].
Proof. vm_compute. reflexivity. Qed.
Lemma no_suffix_inside name : without "." name -> forall u v, name <> u ++ ".csv.gz" ++ v.
Proof. intros H u v ->. apply without_app in H as [_ H]. by apply without_cons in H as [H _]. Qed.
Ltac no_char := repeat (apply without_cons; split; [discriminate|]); apply without_nil.
Example gather_hypotheses : 
  Forall2 (fun l run => result_file demo_float demo_int demo_csv l (fst (fst run)) (snd (fst run)) (snd run))
    ["results_7_3.csv.gz"; "results_7_2.csv.gz"]
    [((7 # 1)%Q, 3%Z, [[("D_J", JInt 20)]]); ((7 # 1)%Q, 2%Z, [[("D_J", JInt 20)]])].
Proof.
  repeat constructor; [exists "results_7_3"|exists "results_7_2"]; (split; [done|]); (split; [apply no_suffix_inside; no_char|]);
    (split; [|done]); [exists "results", "7", "3"|exists "results", "7", "2"]; (split; [done|]); (split; [|done]);
    repeat constructor; no_char.
Qed.
Example unlabelled_example out : gather_kmc demo_float demo_int demo_csv ["results_0.5_3.csv.gz"; "results.csv.gz"] <> Ok out.
Proof.
  apply (unlabelled_file_stops_the_gathering _ _ _ _ "results.csv.gz" "results" ["results"]); try done.
  - right. left.
  - apply no_suffix_inside. no_char.
  - repeat constructor. no_char.
  - cbn. lia.
Qed.

(** The labels are not those of the name of the file: an underscore in a directory shifts them. *)
Theorem labels_are_of_the_file_name_refuted :
  exists directory name x i, named demo_float demo_int name x i
    /\ labels demo_float demo_int (before ".csv.gz" (directory ++ "/" ++ name ++ ".csv.gz")) = Ok (7 # 1, 2%Z)
    /\ (x, i) <> (7 # 1, 2%Z).
Proof.
  exists "a_7_2_", "results_0.5_3", (1 # 2), 3%Z. split; [|split; [reflexivity|discriminate]].
  exists "results", "0.5", "3". split; [done|]. split; [|done]. repeat constructor; no_char.
Qed.
Print Assumptions labels_are_of_the_file_name_refuted.
(** Two runs may come to have the same labels and passes. *)
Theorem labels_tell_runs_apart_refuted :
  exists a b, a <> b /\ labels demo_float demo_int (before ".csv.gz" a) = labels demo_float demo_int (before ".csv.gz" b)
    /\ exists l, labels demo_float demo_int (before ".csv.gz" a) = Ok l.
Proof. exists "results_0.5_3.csv.gz", "results_0.5_3_again.csv.gz". split; [discriminate|]. split; [reflexivity|]. by eexists. Qed.
Print Assumptions labels_tell_runs_apart_refuted.

Definition cube : vec * vec * vec := (Vec 4 0 0, Vec 0 4 0, Vec 0 0 4).
Definition final_demo : crystal := Crystal cube [("Na", Vec (5 # 4) 0 0); ("Zr", Vec 0 0 0); ("Si", Vec 0 (1 # 2) 0)].
Definition template_demo : crystal := Crystal cube [("Na", Vec (1 # 4) 0 0); ("Na", Vec (1 # 4) (1 # 2) 0); ("Si", Vec 0 (1 # 2) 0)].
Example occupation_example : get_occ (fun _ => Ok final_demo) "POSCAR.final" template_demo = Ok [-1; 1; -1]%Z.
Proof. vm_compute. reflexivity. Qed.
(** With a symbol that is part of another one, the occupation is that of agreement although the species differ. *)
Theorem occupation_is_where_the_species_agree_refuted :
  exists s template occ, get_occ (fun _ => Ok s) "POSCAR.final" template = Ok occ
    /\ comparable (c_lattice template) (c_sites s) (c_sites template)
    /\ occ !! 0 = Some (-1)%Z /\ forall c, c ∈ c_sites s -> c_sites template !! 0 <> Some (fst c, snd c).
Proof.
  exists (Crystal cube [("P", Vec 0 0 0)]), (Crystal cube [("Pt", Vec 0 0 0)]), [(-1)%Z].
  split; [vm_compute; reflexivity|]. split.
  - intros t Ht. apply elem_of_list_singleton in Ht as ->. split.
    + intros c Hc. apply elem_of_list_singleton in Hc as ->. left. by exists 0%Z, 0%Z, 0%Z.
    + intros c c' Hc Hc' _ _. apply elem_of_list_singleton in Hc as ->. by apply elem_of_list_singleton in Hc' as ->.
  - split; [done|]. intros c Hc. by apply elem_of_list_singleton in Hc as ->.
Qed.
Print Assumptions occupation_is_where_the_species_agree_refuted.

(** The hypotheses of the theorem on the table of Monte Carlo runs are met. *)
Example monte_carlo_hypotheses :
  Forall2 (fun l row => run_directory demo_float demo_int l (m_comp row) (m_index row)
    /\ get_occ (fun _ => Ok final_demo) (l ++ "/conditions.0/trajectory/POSCAR.final") template_demo = Ok (m_occ row))
    ["my_runs/comp_7_3"; "comp_0.5_2"] [McRow (7 # 1) 3 [-1; 1; -1]%Z; McRow (1 # 2) 2 [-1; 1; -1]%Z].
Proof.
  repeat constructor; [exists "comp_7_3"|exists "comp_0.5_2"]; cbn [m_comp m_index].
  - split; [right; by exists "my_runs"|]. split; [no_char|]. exists "comp", "7", "3". split; [done|]. split; [|done].
    repeat constructor; no_char.
  - split; [by left|]. split; [no_char|]. exists "comp", "0.5", "2". split; [done|]. split; [|done].
    repeat constructor; no_char.
Qed.
(** The hypotheses of the theorem on occupations are met. *)
Lemma quarter_far a b p q r : (vx a - vx b == inject_Z p * (1 # 4))%Q -> (vy a - vy b == inject_Z q * (1 # 4))%Q ->
  (vz a - vz b == inject_Z r * (1 # 4))%Q -> ~ (p mod 4 = 0 /\ q mod 4 = 0 /\ r mod 4 = 0)%Z -> far cube a b.
Proof.
  intros Hx Hy Hz H i j k. unfold norm2, cartesian, vadd, vsub, vscale, cube. cbn [vx vy vz].
  setoid_rewrite Hx. setoid_rewrite Hy. setoid_rewrite Hz.
  set (P := (p + 4 * i)%Z). set (M := (q + 4 * j)%Z). set (N := (r + 4 * k)%Z).
  apply Qle_trans with (inject_Z (P * P + M * M + N * N)).
  - apply Qle_trans with (inject_Z 1); [by vm_compute|]. rewrite <- Zle_Qle.
    assert (~ (P = 0 /\ M = 0 /\ N = 0)%Z).
    { unfold P, M, N. intros (H1 & H2 & H3). apply H.
      replace p with ((-i) * 4)%Z by lia. replace q with ((-j) * 4)%Z by lia. replace r with ((-k) * 4)%Z by lia.
      by rewrite !Z.mod_mul. }
    nia.
  - apply Qle_lteq. right. unfold P, M, N. rewrite !inject_Z_plus, !inject_Z_mult, !inject_Z_plus, !inject_Z_mult.
    change (inject_Z 4) with (4 # 1)%Q. field.
Qed.
Lemma part_of_two a b : proper_part a b -> String.length a < String.length b.
Proof.
  intros [Hne (u & v & ->)].
  assert (HL : forall x y, String.length (x ++ y) = String.length x + String.length y).
  { induction x as [|c x IH]; intros y; [done|]. change (String c x ++ y) with (String c (x ++ y)). cbn. by rewrite IH. }
  rewrite !HL. destruct u as [|c u]; [destruct v as [|c v]|]; cbn; try lia. exfalso. apply Hne.
  by rewrite app_nil_s.
Qed.
Example occupation_hypotheses :
  let casm := List.filter (fun c => negb (framework (fst c))) (c_sites final_demo) in
  comparable (c_lattice template_demo) casm (c_sites template_demo)
  /\ (forall c t, c ∈ casm -> t ∈ c_sites template_demo -> ~ proper_part (fst c) (fst t)).
Proof.
  cbn [final_demo template_demo c_sites c_lattice List.filter framework fst snd negb orb String.eqb Ascii.eqb Bool.eqb].
  split.
  - intros t Ht. rewrite !elem_of_cons in Ht. setoid_rewrite elem_of_cons. setoid_rewrite elem_of_list_singleton.
    destruct Ht as [->|[->|[->|Ht]]]; [| | |by apply elem_of_nil in Ht]; cbn [fst snd]; split.
    + intros c [->| ->]; cbn [snd]; [left; by exists 1%Z, 0%Z, 0%Z|right; apply (quarter_far _ _ (-1) 2 0); [reflexivity..|]; vm_compute; intros (H1 & H2 & H3); discriminate].
    + intros c c' [->| ->] [->| ->] (i & j & k & H) (i' & j' & k' & H'); cbn in H, H'; try done;
        exfalso; unfold Qeq in *; cbn in *; lia.
    + intros c [->| ->]; cbn [snd]; right; [apply (quarter_far _ _ 4 (-2) 0); [reflexivity..|]; vm_compute; intros (H1 & H2 & H3); discriminate|apply (quarter_far _ _ (-1) 0 0); [reflexivity..|]; vm_compute; intros (H1 & H2 & H3); discriminate].
    + intros c c' [->| ->] [->| ->] (i & j & k & H) (i' & j' & k' & H'); cbn in H, H'; try done;
        exfalso; unfold Qeq in *; cbn in *; lia.
    + intros c [->| ->]; cbn [snd]; [right; apply (quarter_far _ _ 5 (-2) 0); [reflexivity..|]; vm_compute; intros (H1 & H2 & H3); discriminate|left; by exists 0%Z, 0%Z, 0%Z].
    + intros c c' [->| ->] [->| ->] (i & j & k & H) (i' & j' & k' & H'); cbn in H, H'; try done;
        exfalso; unfold Qeq in *; cbn in *; lia.
  - intros c t Hc Ht Hp. apply part_of_two in Hp.
    assert (E : forall l x, x ∈ l -> Forall (fun x : string * vec => String.length (fst x) = 2) l -> String.length (fst x) = 2)
      by (intros l x Hx HF; rewrite Forall_forall in HF; by apply HF).
    rewrite (E _ _ Hc), (E _ _ Ht) in Hp by (repeat constructor). lia.
Qed.
