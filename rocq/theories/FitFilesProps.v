(** C83: the files of a fit. *)
From Coq Require Import QArith Ascii.
From Verif Require Import Py PyLemmas Json StateModel ParamModel ParamSpec ParamProofs FitFilesModel FitFilesSpec FitFilesProofs.
Local Open Scope string_scope.

(** A fit of three energies with two features, and the files it works with. *)
Definition x_name (c : ascii) : path := [c; "."; "j"; "s"; "o"; "n"]%char.
Definition x_args : fit_args :=
  FitArgs (JFloat (1 # 10)) 1000 (x_name "e") (x_name "k") (x_name "w") (x_name "x") (Some (x_name "p")) (Some (x_name "h")) None true
    (Some ["f0"; "f1"]) (Some "e0").
Definition x_regress (x : list (list Q)) (y w : list Q) (alpha : json) (n : Z) (normalize : bool) : result (list Q * Q) :=
  match x with row :: _ => Ok (map (fun _ => 1 # 3) row, 1 # 5) | [] => Err ValueError end.
Definition x_loocv (x : list (list Q)) (y : list Q) (alpha : json) (n : Z) (normalize : bool) : result Q := Ok (1 # 50).
Definition x_rmse (x : list (list Q)) (y keci : list Q) (empty : Q) : result Q := Ok (1 # 100).
Definition x_results (r : params) (c : option content) : content := CDoc (JObj []).
Definition x_files : files :=
  [(x_name "e", CNumbers [[1]; [2]; [3]]); (x_name "w", CNumbers [[1]; [1]; [2]]);
   (x_name "x", CNumbers [[1; 0]; [0; 1]; [1; 1]])]%Q.
Definition x_fit (fs : files) := fit x_regress x_loocv x_rmse (fun q => q) x_results new_fitter x_args (7 # 1, "now") fs.
Lemma x_usual : usual x_args.
Proof. split; [|left; by eexists]. apply (bool_decide_unpack _). vm_compute. exact I. Qed.
Lemma x_history : forall p, given (a_history x_args) = Some p -> exists old, json_history p x_files old.
Proof. intros p [= <-]. exists []. split; [done|by left]. Qed.

(** A fit that raises leaves the fitter and every file as they were, if the history file can be
    read or is not there. *)
Theorem failed_fit_changes_nothing regress loocv rmse round8 save_results f args now fs f' fs' e : usual args ->
  (forall p, given (a_history args) = Some p -> exists old, json_history p fs old) ->
  fit regress loocv rmse round8 save_results f args now fs = (f', fs', Err e) -> f' = f /\ fs' = fs.
Proof. exact (failed_fit regress loocv rmse round8 save_results f args now fs f' fs' e). Qed.
Example failed_fit_example : usual x_args /\ (forall p, given (a_history x_args) = Some p -> exists old, json_history p x_files old)
  /\ fit (fun _ _ _ _ _ _ => Ok ([1 # 2], 0%Q)) x_loocv x_rmse (fun q => q) x_results new_fitter x_args (7 # 1, "now") x_files
     = (new_fitter, x_files, Err ValueError).
Proof. split; [exact x_usual|]. split; [exact x_history|reflexivity]. Qed.
Print Assumptions failed_fit_changes_nothing.

(** If the history file cannot be read, the fit raises after it replaced the fitter's record and
    the other files. *)
Theorem failed_fit_changes_nothing_refuted : exists fs f' fs' r e,
  fit x_regress x_loocv x_rmse (fun q => q) x_results new_fitter x_args (7 # 1, "now") fs = (f', fs', Err e)
  /\ f' <> new_fitter /\ params_from_file (x_name "p") fs = Err FileNotFoundError /\ params_from_file (x_name "p") fs' = Ok r.
Proof.
  exists (x_files ++ [(x_name "h", CBroken)])%list. do 4 eexists. split; [reflexivity|]. split; [done|]. split; [reflexivity|]. reflexivity.
Qed.
Print Assumptions failed_fit_changes_nothing_refuted.

(** A fit that returns: the fitter holds the record it returns, with the fingerprints and the hash
    it was given and one coefficient for each fingerprint; the coefficients are in their file as
    printed; the parameter file reads back the record; the history file reads back its old records
    and then the new one; no other file changed. *)
Theorem what_a_fit_leaves regress loocv rmse round8 save_results f args now fs f' fs' r : usual args ->
  (forall p, given (a_history args) = Some p -> exists old, json_history p fs old) ->
  fit regress loocv rmse round8 save_results f args now fs = (f', fs', Ok r) ->
  f' = r /\ p_orbit_fingerprints r = text_list (a_fingerprints args) /\ p_local_environment_hash r = text_or_none (a_env_hash args)
  /\ (exists keci, p_keci r = float_list keci /\ dget fs' (a_keci args) = Some (CNumbers (map (fun q => [round8 q]) keci))
        /\ match a_fingerprints args with Some l => length keci = length l | None => True end)
  /\ (forall p, given (a_params args) = Some p -> ~ h5_path p -> params_from_file p fs' = Ok r)
  /\ (forall p old, given (a_history args) = Some p -> json_history p fs old -> history_from_file p fs' = Ok (map forget old ++ [r])%list)
  /\ forall q, q ∉ written args -> dget fs' q = dget fs q.
Proof. exact (successful_fit regress loocv rmse round8 save_results f args now fs f' fs' r). Qed.
Example what_a_fit_leaves_example : usual x_args /\ (forall p, given (a_history x_args) = Some p -> exists old, json_history p x_files old)
  /\ (exists f' fs' r, x_fit x_files = (f', fs', Ok r) /\ history_from_file (x_name "h") fs' = Ok [r])
  /\ given (a_params x_args) = Some (x_name "p") /\ ~ h5_path (x_name "p").
Proof.
  split; [exact x_usual|]. split; [exact x_history|]. split; [|done]. do 3 eexists. split; [reflexivity|]. reflexivity.
Qed.
Print Assumptions what_a_fit_leaves.

(** Fits in a row with the same history file: it has every record of every fit, in their order,
    after the records it had, and the fitter has the last one. *)
Theorem history_has_every_fit regress loocv rmse round8 save_results hp calls f fs f' fs' rs old :
  Forall (fun c => usual (fst c) /\ given (a_history (fst c)) = Some hp) calls ->
  json_history hp fs old ->
  fits regress loocv rmse round8 save_results f calls fs = (f', fs', Ok rs) ->
  f' = List.last rs f /\ length rs = length calls
  /\ json_history hp fs' (match calls with [] => old | _ => map forget old ++ rs end)%list.
Proof. exact (history_of_fits regress loocv rmse round8 save_results hp calls f fs f' fs' rs old). Qed.
Example history_has_every_fit_example : let calls := [(x_args, (7 # 1, "now")); (x_args, (8 # 1, "later"))] in
  Forall (fun c => usual (fst c) /\ given (a_history (fst c)) = Some (x_name "h")) calls
  /\ json_history (x_name "h") x_files []
  /\ exists f' fs' r1 r2, fits x_regress x_loocv x_rmse (fun q => q) x_results new_fitter calls x_files = (f', fs', Ok [r1; r2]) /\ r1 <> r2
     /\ history_from_file (x_name "h") fs' = Ok [r1; r2].
Proof.
  intros calls. split; [|split].
  - apply Forall_cons; split; [split; [exact x_usual|done]|]. apply Forall_cons; split; [split; [exact x_usual|done]|]. constructor.
  - split; [done|by left].
  - do 4 eexists. split; [reflexivity|]. split; [done|]. reflexivity.
Qed.
Print Assumptions history_has_every_fit.

(** A fit with one feature is always refused, because its table is read as a list. *)
Theorem one_feature_is_refused regress loocv rmse round8 save_results f args now fs rows : a_normalize args = true ->
  dget fs (a_corr args) = Some (CNumbers rows) -> Forall (fun row => length row = 1) rows ->
  match dget fs (a_ekra args), dget fs (a_weight args) with
  | Some (CNumbers y), Some (CNumbers w) => same_lengths y = true /\ same_lengths w = true
  | _, _ => False
  end ->
  fit regress loocv rmse round8 save_results f args now fs = (f, fs, Err TypeError).
Proof. exact (one_feature regress loocv rmse round8 save_results f args now fs rows). Qed.
Example one_feature_example : let fs := dset x_files (x_name "x") (CNumbers [[1]; [0]; [1]]%Q) in
  a_normalize x_args = true /\ dget fs (a_corr x_args) = Some (CNumbers [[1]; [0]; [1]]%Q)
  /\ match dget fs (a_ekra x_args), dget fs (a_weight x_args) with
     | Some (CNumbers y), Some (CNumbers w) => same_lengths y = true /\ same_lengths w = true
     | _, _ => False
     end.
Proof. done. Qed.
Print Assumptions one_feature_is_refused.

(** A fitter written to a file comes back with its record, except for the cluster lists, the local
    site order and the name. *)
Theorem fitter_comes_back p f fs : json_record f ->
  exists fs', fitter_to p f fs = (fs', Ok tt) /\ fitter_from_file p fs'
    = Ok (Params (p_keci f) (p_empty_cluster f) (PJson (JList [])) (p_weight f) (p_alpha f) (p_time_stamp f) (p_time f) (p_rmse f) (p_loocv f)
        (p_normalize f) (p_orbit_fingerprints f) (p_local_environment_hash f) none "LCEModelParameters").
Proof. exact (fitter_reload p f fs). Qed.
Example fitter_comes_back_example : exists f' fs' r, x_fit x_files = (f', fs', Ok r) /\ json_record f' /\ f' <> new_fitter.
Proof.
  do 3 eexists. split; [reflexivity|]. split; [|done]. unfold json_record, fields. cbn. repeat (apply Forall_cons; split; [by eexists|]). constructor.
Qed.
Print Assumptions fitter_comes_back.

(** A file of several numbered records gives the one with the greatest number, whatever their
    order. *)
Theorem greatest_number_is_taken payload f : dget payload "keci" = None -> fitter_from_json (JObj payload) = Ok f ->
  exists k n o, (k, JObj o) ∈ payload /\ py_int_str k = Ok n /\ f = params_from_dict (of_object o)
    /\ forall k' n' o', (k', JObj o') ∈ payload -> py_int_str k' = Ok n' -> (n' <= n)%Z.
Proof. exact (newest_record payload f). Qed.
Example greatest_number_example : exists f,
  fitter_from_json (JObj [("9", JObj [("alpha", JInt 1)]); ("10", JObj [("alpha", JInt 2)]); ("note", JObj []); ("2", JObj [("alpha", JInt 3)])]) = Ok f
  /\ p_alpha f = PJson (JInt 2).
Proof. eexists. split; reflexivity. Qed.
Print Assumptions greatest_number_is_taken.
