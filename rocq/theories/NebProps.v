(** C86: the data of NEB calculations. *)
From Coq Require Import QArith Ascii.
From Verif Require Import Py PyLemmas Json StateModel ParamModel FitFilesModel NebModel NebSpec NebProofs.
Local Open Scope string_scope.

(** Structures are lists of states; a model with [n] features multiplies the first state. *)
Definition x_features (n : nat) (reference : option unit) (s : list Z) (tol : Q * Q) : result (list Z * list Q) :=
  match s with z :: _ => Ok (s, map (fun k => inject_Z (z * Z.of_nat k)) (seq 1 n)) | [] => Err ValueError end.
Definition x_read (p : path) (kw : dict string json) : result (list Z) := match p with [] => Err FileNotFoundError | _ => Ok [7; 0]%Z end.
Definition x_name (n : nat) : json := JStr "expansion".
Definition x_how (model : option nat) : how (Ref := unit) := How model None None (1 # 100, 5%Q).
Notation x_perform := (perform x_features x_read x_name).
Notation x_source := (source (S := list Z)).
Definition x_loader : loader (M := nat) (Ref := unit) := Loader [] (Some 2%nat) None (Some (JStr "expansion")).
(** Three structures, one of them refused, and one from a file. *)
Definition x_calls : list (call (M := nat) (Ref := unit) (S := list Z)) :=
  [AddOne (Given [1; 0]%Z) (1 # 2) None (x_how None) []; AddOne (Given []) 1 None (x_how None) [];
   Make (Given [3; 1]%Z) (3 # 2) (Some [("id", JInt 3)]) []; Add 2 (x_how None);
   AddMany [File ["f"]%char; Given [5]%Z; Given [2; 2]%Z] [2; 3; 4]%Q None (x_how None) []].
Definition x_after : memory * loader := fold_left (fun s c => fst (x_perform (fst s) (snd s) c)) x_calls ([], x_loader).
Lemma x_step m l c : reached x_features x_read x_name m l -> (forall id a, c = Add id a -> id ∉ l_entries l) ->
  reached x_features x_read x_name (fst (fst (x_perform m l c))) (snd (fst (x_perform m l c))).
Proof. intros H Hc. destruct (x_perform m l c) as [[m' l'] r] eqn:E. by eapply reached_call. Qed.
Lemma x_reached : reached x_features x_read x_name (fst x_after) (snd x_after).
Proof.
  unfold x_after, x_calls. cbn [fold_left]. apply x_step; [|done]. apply x_step.
  - apply x_step; [|done]. apply x_step; [|done]. apply x_step; [|done]. by apply (reached_new _ _ _ (Some 2%nat) None).
  - intros id a [= <- <-]. vm_compute. intros Hin. apply elem_of_cons in Hin as [?|Hin]; [discriminate|by apply elem_of_nil in Hin].
Qed.

(** After any calls, of which any number raised, the tables of a loader have the same rows in the
    same order: row by row the vectors of one structure, computed from it, and its own value; all
    rows have the same lengths, so that the tables can always be made. *)
Theorem tables_belong_together M Ref S (features : M -> option Ref -> S -> Q * Q -> result (list Z * list Q)) read name_of_model m l :
  reached features read name_of_model m l -> l_entries l <> [] ->
  get_correlation_matrix m l = Ok (map r_correlation (rows m l))
  /\ get_occupation_matrix m l = Ok (map r_occupation (rows m l))
  /\ get_properties m l = Ok (map r_value (rows m l))
  /\ length (rows m l) = length (l_entries l) /\ Forall (computed features) (rows m l) /\ uniform (rows m l).
Proof.
  intros H Hne. apply reached_inv in H. destruct (tables features m l H Hne) as (H1 & H2 & H3). split; [exact H1|]. split; [exact H2|]. split; [exact H3|].
  split; [exact (rows_length features m l H)|]. destruct H as (_ & H4 & H5). by split.
Qed.
Example tables_example : let m := fst x_after in let l := snd x_after in
  reached x_features x_read x_name m l /\ get_correlation_matrix m l = Ok [[1; 2]; [3; 6]; [7; 14]]%Q
  /\ get_properties m l = Ok [1 # 2; 3 # 2; 2]%Q /\ get_occupation_matrix m l = Ok [[1; 0]; [3; 1]; [7; 0]]%Z.
Proof. split; [exact x_reached|]. done. Qed.
Print Assumptions tables_belong_together.

(** Adding an entry that the loader does not have yet appends its row, computed with the model and
    the reference that were given or, without them, with those of the loader; if it raises, the rows
    and the loader are as before. *)
Theorem addition_appends_a_row M Ref S (features : M -> option Ref -> S -> Q * Q -> result (list Z * list Q)) read name_of_model m l id a m' l' r :
  reached features read name_of_model m l -> id ∉ l_entries l -> add features name_of_model m l id a = (m', l', r) ->
  match r with
  | Ok _ => exists e model occ corr, m !! id = Some e /\ match h_model a with Some x => Some x | None => l_model l end = Some model
      /\ features model (match h_reference a with Some x => Some x | None => l_reference l end) (e_structure e) (h_tol a) = Ok (occ, corr)
      /\ rows m' l' = (rows m l ++ [Row (e_structure e) (e_value e) (e_metadata e) occ corr])%list
  | Err _ => l' = l /\ rows m' l' = rows m l
  end.
Proof.
  intros H Hid Hadd. destruct (add_step features name_of_model m l id a m' l' r (reached_inv features read name_of_model m l H) Hid Hadd) as [_ Hr].
  destruct r; [|exact Hr]. destruct Hr as (e & model & occ & corr & H1 & H2 & H3 & H4 & _). exists e, model, occ, corr.
  destruct (h_model a), (h_reference a); exact (conj H1 (conj H2 (conj H3 H4))).
Qed.
Example addition_example : let m := (fst x_after ++ [Entry [8; 8]%Z 9 None None; Entry [8]%Z 9 None None])%list in let l := snd x_after in
  snd (add x_features x_name m l 6 (x_how None)) = Err ValueError /\ snd (add x_features x_name m l 5 (x_how None)) = Ok tt
  /\ snd (add x_features x_name m l 5 (x_how (Some 3%nat))) = Err ValueError
  /\ map r_correlation (rows (fst (fst (add x_features x_name m l 5 (x_how None)))) (snd (fst (add x_features x_name m l 5 (x_how None)))))
     = [[1; 2]; [3; 6]; [7; 14]; [8; 16]]%Q.
Proof. done. Qed.
Print Assumptions addition_appends_a_row.

(** Adding several structures appends the rows of the structures that come before the first refused
    one, in order, with their values and metadata; all of them if it returns. *)
Theorem additions_append_a_prefix M Ref S (features : M -> option Ref -> S -> Q * Q -> result (list Z * list Q)) read name_of_model m l
    structures values metadata a kw m' l' r :
  reached features read name_of_model m l ->
  add_structures features read name_of_model m l structures values metadata a kw = (m', l', r) ->
  exists taken new,
    let items := zip (zip structures values) (match metadata with Some ms => ms | None => repeat None (length structures) end) in
    taken `prefix_of` items /\ rows m' l' = (rows m l ++ new)%list /\ Forall2 (row_from read kw) taken new
    /\ match r with
       | Ok _ => taken = items /\ length items = length structures /\ length structures = length values
       | Err _ => taken <> items \/ length structures <> length values \/ exists ms, metadata = Some ms /\ length ms <> length structures
       end.
Proof.
  intros H Ha. destruct (add_structures_step features read name_of_model m l structures values metadata a kw m' l' r (reached_inv features read name_of_model m l H) Ha)
    as (_ & _ & taken & new & H1 & H2 & H3 & _ & H4). by exists taken, new.
Qed.
Example additions_example : let r := add_structures x_features x_read x_name [] x_loader [Given [1; 0]; Given [2; 0]; Given [3]; Given [4; 0]]%Z [1; 2; 3; 4]%Q None (x_how None) [] in
  snd r = Err ValueError /\ map r_value (rows (fst (fst r)) (snd (fst r))) = [1; 2]%Q.
Proof. done. Qed.
Print Assumptions additions_append_a_prefix.

(** So a call that raises can leave some of its structures in the loader. *)
Theorem failed_additions_change_nothing_refuted : exists m l structures values a m' l' e,
  reached x_features x_read x_name m l
  /\ add_structures x_features x_read x_name m l structures values None a [] = (m', l', Err e) /\ rows m l = [] /\ rows m' l' <> [].
Proof.
  exists [], x_loader, [Given [1; 0]; Given [3]]%Z, [1; 2]%Q, (x_how None). do 3 eexists.
  split; [by apply (reached_new _ _ _ (Some 2%nat) None)|]. split; [reflexivity|]. done.
Qed.
Print Assumptions failed_additions_change_nothing_refuted.

(** A loader made of structures has exactly their rows, in order, all computed with the given model
    and reference. *)
Theorem loader_of_structures M Ref S (features : M -> option Ref -> S -> Q * Q -> result (list Z * list Q)) read name_of_model
    structures values metadata model reference tol kw m l :
  from_structures features read name_of_model [] structures values metadata (How (Some model) reference None tol) kw = (m, Ok l) ->
  reached features read name_of_model m l
  /\ Forall2 (row_from read kw) (zip (zip structures values) (match metadata with Some ms => ms | None => repeat None (length structures) end)) (rows m l)
  /\ length (rows m l) = length structures
  /\ forall r, r ∈ rows m l -> features model reference (r_structure r) tol = Ok (r_occupation r, r_correlation r).
Proof.
  unfold from_structures. cbn [h_model h_reference h_exclude h_tol]. destruct (new_loader name_of_model (Some model) reference None) as [l0|] eqn:E; [|done].
  destruct (inv_new features name_of_model (Some model) reference l0 E) as (Hi & Hr & _ & Hm & Href).
  destruct (add_structures features read name_of_model [] l0 structures values metadata (How None None None tol) kw) as [[m1 l1] [u|]] eqn:Ea; intros [= <- <-].
  destruct (add_structures_step features read name_of_model _ _ _ _ _ _ _ _ _ _ Hi Ea) as (_ & _ & taken & new & H1 & H2 & H3 & H4 & H5 & H6 & H7).
  rewrite Hr in H2. cbn [app] in H2. subst taken. split; [|split; [|split]].
  - eapply (reached_call _ _ _ _ _ (AddMany structures values metadata (How None None None tol) kw)); [by eapply reached_new|done|exact Ea].
  - by rewrite H2.
  - rewrite H2, <-(Forall2_length _ _ _ H3). exact H6.
  - intros r Hr'. rewrite H2 in Hr'. specialize (H4 model). cbn [either h_model h_reference h_tol] in H4. rewrite Hm, Href in H4. specialize (H4 eq_refl).
    rewrite Forall_forall in H4. by apply H4.
Qed.
Example loader_of_structures_example : exists m l,
  from_structures x_features x_read x_name [] [Given [1; 0]%Z; File ["f"]%char] [1; 2]%Q (Some [None; Some [("id", JInt 2)]]) (How (Some 2%nat) None None (1, 1)%Q) [] = (m, Ok l)
  /\ map r_metadata (rows m l) = [Some []; Some [("id", JInt 2); ("structure_file", JStr "f")]].
Proof. do 2 eexists. split; reflexivity. Qed.
Print Assumptions loader_of_structures.

(** The data file lists the rows. *)
Theorem data_file_lists_the_rows M Ref S (features : M -> option Ref -> S -> Q * Q -> result (list Z * list Q)) read name_of_model p m l fs :
  reached features read name_of_model m l -> l_entries l <> [] ->
  exists fs', loader_to p m l fs = (fs', Ok tt) /\ loadfn p fs' = Ok (JObj
    [("correlation_matrix", JList (map (fun r => JList (map JFloat (r_correlation r))) (rows m l)));
     ("occupation_matrix", JList (map (fun r => JList (map JInt (r_occupation r))) (rows m l)));
     ("properties", JList (map (fun r => JFloat (r_value r)) (rows m l)));
     ("metadata", JList (map (fun r => JObj (match r_metadata r with Some d => d | None => [] end)) (rows m l)));
     ("n_structures", JInt (Z.of_nat (length (rows m l))));
     ("model_name", match l_name l with Some n => n | None => JStr "unknown" end)])
    /\ forall q, q <> p -> dget fs' q = dget fs q.
Proof. intros H. exact (written_data features p m l fs (reached_inv features read name_of_model m l H)). Qed.
Example data_file_example : reached x_features x_read x_name (fst x_after) (snd x_after) /\ l_entries (snd x_after) = [0; 2; 3]%nat.
Proof. split; [exact x_reached|done]. Qed.
Print Assumptions data_file_lists_the_rows.

(** The files written for a fit give it exactly the rows: features, values and weights of the same
    structures in the same order; no other file changes. *)
Theorem fit_reads_the_rows M Ref S (features : M -> option Ref -> S -> Q * Q -> result (list Z * list Q)) read name_of_model m l
    corr ekra weight w fs n :
  reached features read name_of_model m l -> NoDup [corr; ekra; weight] -> (2 <= length (rows m l))%nat ->
  (2 <= n)%nat -> (forall r, r ∈ rows m l -> length (r_correlation r) = n) ->
  match w with inl _ => True | inr ws => length ws = length (rows m l) end ->
  let ws := match w with inl q => repeat q (length (rows m l)) | inr ws => ws end in
  exists fs', write_fitting_inputs corr ekra weight w m l fs = (fs', Ok tt)
    /\ (forall q, q ∉ [corr; ekra; weight] -> dget fs' q = dget fs q)
    /\ forall regress loocv rmse args now r, a_corr args = corr -> a_ekra args = ekra -> a_weight args = weight ->
         compute_fit regress loocv rmse args now fs' = Ok r ->
         exists keci empty, p_keci r = float_list keci /\ p_empty_cluster r = PJson (JFloat empty) /\ p_weight r = float_list ws
           /\ regress (map r_correlation (rows m l)) (map r_value (rows m l)) ws (a_alpha args) (a_max_iter args) (a_normalize args) = Ok (keci, empty).
Proof.
  intros H Hd Hn Hn2 Hf Hw ws. apply reached_inv in H. pose proof (rows_length features m l H) as Hlen.
  assert (Hws : as_weights w (length (l_entries l)) = Ok ws).
  { subst ws. unfold as_weights. destruct w as [q|k]; [by rewrite Hlen|]. rewrite Hw, Hlen, Nat.eqb_refl. done. }
  destruct (written_inputs features corr ekra weight w ws m l fs n H Hd) as (fs' & E1 & E2 & E3 & E4 & E5); try done; try lia.
  exists fs'. split; [done|]. split; [done|]. intros regress loocv rmse args now r <- <- <-. unfold compute_fit. rewrite E2, E3, E4. cbn [rbind].
  rewrite (squeeze_matrix _ n); [|by rewrite map_length|done|].
  2:{ intros x Hx. apply elem_of_list_In, in_map_iff in Hx as (y & <- & Hy). apply Hf. by apply elem_of_list_In. }
  destruct (regress _ _ _ _ _ _) as [[keci empty]|] eqn:Er; [|done]. cbn [rbind fst snd]. match goal with |- (if ?b then _ else _) = _ -> _ => destruct b end; [done|].
  intros Hr. apply rbind_ok in Hr as (cv & _ & Hr). apply rbind_ok in Hr as (rms & _ & Hr). injection Hr as <-. exists keci, empty. done.
Qed.
Example fit_reads_example : let m := fst x_after in let l := snd x_after in
  reached x_features x_read x_name m l /\ length (rows m l) = 3%nat /\ (forall r, r ∈ rows m l -> length (r_correlation r) = 2%nat)
  /\ exists fs', write_fitting_inputs ["c"]%char ["e"]%char ["w"]%char (inr [1; 1; 2]%Q) m l [] = (fs', Ok tt)
     /\ loadtxt ["c"]%char fs' = Ok (Matrix [[1; 2]; [3; 6]; [7; 14]]%Q) /\ loadtxt ["w"]%char fs' = Ok (Vector [1; 1; 2]%Q).
Proof.
  split; [exact x_reached|]. split; [done|]. split; [|eexists; split; [reflexivity|done]].
  intros r Hr. vm_compute in Hr. repeat (apply elem_of_cons in Hr as [->|Hr]; [done|]). by apply elem_of_nil in Hr.
Qed.
Print Assumptions fit_reads_the_rows.

(** One structure is never enough: its table is read as a list, which a fit refuses. *)
Theorem one_structure_is_refused M Ref S (features : M -> option Ref -> S -> Q * Q -> result (list Z * list Q)) read name_of_model m l
    corr ekra weight w fs fs' n : reached features read name_of_model m l -> NoDup [corr; ekra; weight] -> length (rows m l) = 1%nat ->
  (0 < n)%nat -> (forall r, r ∈ rows m l -> length (r_correlation r) = n) ->
  write_fitting_inputs corr ekra weight w m l fs = (fs', Ok tt) ->
  forall regress loocv rmse args now, a_corr args = corr -> a_ekra args = ekra -> a_weight args = weight ->
    exists e, compute_fit regress loocv rmse args now fs' = Err e.
Proof.
  intros H Hd Hn Hn0 Hf Hw regress loocv rmse args now <- <- <-. apply reached_inv in H.
  exact (one_row features _ _ _ w m l fs fs' n regress loocv rmse args now H Hd Hn Hn0 Hf Hw eq_refl eq_refl eq_refl).
Qed.
Example one_structure_example : exists m l, reached x_features x_read x_name m l /\ map r_correlation (rows m l) = [[1; 2]]%Q
  /\ snd (write_fitting_inputs ["c"]%char ["e"]%char ["w"]%char (inl 1%Q) m l []) = Ok tt.
Proof.
  do 2 eexists. split.
  - eapply (reached_call _ _ _ [] x_loader (AddOne (Given [1; 0]%Z) (1 # 2) None (x_how None) [])); [by apply (reached_new _ _ _ (Some 2%nat) None)|done|reflexivity].
  - split; reflexivity.
Qed.
Print Assumptions one_structure_is_refused.

(** Weights are checked after the other files were written: a call that raises leaves new features
    and values beside the old weights, and a fit accepts the mixture. *)
Theorem failed_writing_changes_nothing_refuted : exists m l fs fs' corr ekra weight w e,
  reached x_features x_read x_name m l /\ write_fitting_inputs corr ekra weight w m l fs = (fs', Err e)
  /\ loadtxt corr fs = Ok (Matrix [[9; 9]; [8; 8]; [7; 7]]%Q) /\ loadtxt ekra fs = Ok (Vector [9; 8; 7]%Q) /\ loadtxt weight fs = Ok (Vector [1; 1; 5]%Q)
  /\ loadtxt corr fs' = Ok (Matrix [[1; 2]; [3; 6]; [7; 14]]%Q) /\ loadtxt ekra fs' = Ok (Vector [1 # 2; 3 # 2; 2]%Q) /\ loadtxt weight fs' = Ok (Vector [1; 1; 5]%Q).
Proof.
  exists (fst x_after), (snd x_after), [(["c"]%char, CNumbers [[9; 9]; [8; 8]; [7; 7]]%Q); (["e"]%char, CNumbers [[9]; [8]; [7]]%Q); (["w"]%char, CNumbers [[1]; [1]; [5]]%Q)].
  eexists. exists ["c"]%char, ["e"]%char, ["w"]%char, (inr [1; 1]%Q), ValueError. split; [exact x_reached|]. split; [reflexivity|]. done.
Qed.
Print Assumptions failed_writing_changes_nothing_refuted.

(** An entry is an object: giving it again, with another model, changes the row that is already
    there.  If the call raises the loader has changed nevertheless, and its table cannot be made. *)
Theorem entry_given_again_refuted : exists m l m' l' e,
  reached x_features x_read x_name m l /\ get_correlation_matrix m l = Ok [[1; 2]; [3; 6]; [7; 14]]%Q
  /\ add x_features x_name m l 2 (x_how (Some 3%nat)) = (m', l', Err e) /\ l' = l
  /\ get_correlation_matrix m' l' = Err ValueError.
Proof.
  exists (fst x_after), (snd x_after). do 3 eexists. split; [exact x_reached|]. split; [reflexivity|]. split; [reflexivity|]. split; reflexivity.
Qed.
Print Assumptions entry_given_again_refuted.

(** Only lengths are compared: rows of two models with as many features stand in one table. *)
Theorem rows_of_one_model_refuted : exists (features : bool -> option unit -> list Z -> Q * Q -> result (list Z * list Q)) m l,
  reached features x_read (fun _ => JStr "expansion") m l /\ (forall s tol, features true None s tol <> features false None s tol)
  /\ exists r1 r2, rows m l = [r1; r2] /\ r_structure r1 = r_structure r2
     /\ features true None (r_structure r1) (1 # 100, 5%Q) = Ok (r_occupation r1, r_correlation r1)
     /\ features false None (r_structure r2) (1 # 100, 5%Q) = Ok (r_occupation r2, r_correlation r2).
Proof.
  set (features := fun (b : bool) (_ : option unit) (s : list Z) (_ : Q * Q) => Ok (s, [if b then 1 else 2]%Q)).
  set (how b := How (M := bool) (Ref := unit) (Some b) None None (1 # 100, 5%Q)).
  set (l0 := Loader [] None None None : loader (M := bool) (Ref := unit)). set (name := fun _ : bool => JStr "expansion").
  destruct (perform features x_read name [] l0 (AddOne (Given [1]%Z) 1 None (how true) [])) as [[m1 l1] r1] eqn:E1.
  assert (H1 : reached features x_read name m1 l1) by (eapply reached_call; [by apply (reached_new _ _ _ None None)| |exact E1]; done).
  vm_compute in E1. injection E1 as <- <- _. exists features. do 2 eexists. split; [|split; [done|]].
  - eapply (reached_call _ _ _ _ _ (AddOne (Given [1]%Z) 2 None (how false) [])); [exact H1|done|reflexivity].
  - do 2 eexists. split; [reflexivity|]. done.
Qed.
Print Assumptions rows_of_one_model_refuted.

(** Every way of adding refuses [exclude_species], as does a new loader, and changes nothing. *)
Theorem excluding_species_is_refused M Ref S (features : M -> option Ref -> S -> Q * Q -> result (list Z * list Q)) read name_of_model
    m (l : loader (M := M) (Ref := Ref)) id model reference species tol structures values metadata kw :
  new_loader name_of_model model reference (Some species) = Err ValueError
  /\ add features name_of_model m l id (How model reference (Some species) tol) = (m, l, Err ValueError)
  /\ from_structures features read name_of_model m structures values metadata (How model reference (Some species) tol) kw
     = (m, Err ValueError)
  /\ forall m' l' r, structures <> [] ->
       add_structures features read name_of_model m l structures values metadata (How model reference (Some species) tol) kw = (m', l', r) ->
       l' = l /\ r <> Ok tt.
Proof. exact (exclude_lemma features read name_of_model m l id model reference species tol structures values metadata kw). Qed.
Example excluding_example :
  from_structures x_features x_read x_name [] [Given [1; 0]%Z] [1]%Q None (How (Some 2%nat) None (Some ["Na"]%string) (1, 1)%Q) [] = ([], Err ValueError).
Proof. done. Qed.
Print Assumptions excluding_species_is_refused.
