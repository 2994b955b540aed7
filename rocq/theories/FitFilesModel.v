(** Model of [LCEFitter] in kmcpy/models/fitting/fitter.py: the files a fit reads and writes, the
    record it keeps, and its dictionary forms.  The numbers of the fit itself are in [FitModel]. *)
From Coq Require Import QArith.
From Verif Require Import Py Json StateModel MatcherModel ParamModel.
Local Open Scope string_scope.

(** fitter.py:57-76.  Keys of a JSON object are text.  [max] keeps the first of equal keys. *)
Fixpoint newest (best : option (Z * json)) (l : list (string * json)) : option (Z * json) :=
  match l with
  | [] => best
  | (key, value) :: l' =>
      match value, py_int_str key with
      | JObj _, Ok n =>
          newest (match best with
                  | Some (m, v) => if (m <? n)%Z then Some (n, value) else best
                  | None => Some (n, value)
                  end) l'
      | _, _ => newest best l'
      end
  end.
Definition extract_record (payload : list (string * json)) : result json :=
  match dget payload "keci" with
  | Some _ => Ok (JObj payload)
  | None => match newest None payload with Some (_, v) => Ok v | None => Err ValueError end
  end.

(** A fitter holds one record (fitter.py:40-55). *)
Definition fitter := params.
Definition new_fitter : fitter :=
  Params (PJson (JList [])) (PJson (JFloat 0)) (PJson (JList [])) (PJson (JList [])) (PJson (JFloat 0))
    (PJson (JStr "")) (PJson (JStr "")) (PJson (JFloat 0)) (PJson (JFloat 0)) (PJson (JBool true)) none none none default_name.

(** fitter.py:132-153 and 155-171. *)
Definition fitter_as_dict (f : fitter) : dict string pyval :=
  ([("@module", PJson (JStr "kmcpy.models.fitting.fitter"));
    ("@class", PJson (JStr "LCEFitter"));
    ("time_stamp", p_time_stamp f);
    ("time", p_time f);
    ("weight", p_weight f);
    ("alpha", p_alpha f);
    ("keci", p_keci f);
    ("empty_cluster", p_empty_cluster f);
    ("rmse", p_rmse f);
    ("loocv", p_loocv f);
    ("normalize", p_normalize f)]
   ++ (if is_none (p_orbit_fingerprints f) then [] else [("orbit_fingerprints", p_orbit_fingerprints f)])
   ++ (if is_none (p_local_environment_hash f) then [] else [("local_environment_hash", p_local_environment_hash f)]))%list.
Definition fitter_from_json (j : json) : result fitter :=
  match j with
  | JObj payload => let* record := extract_record payload in params_from_json record
  | _ => Err ValueError
  end.
Definition fitter_to (p : path) (f : fitter) (fs : files) : files * result unit := dumpfn p (dump (fitter_as_dict f)) fs.
Definition fitter_from_file (p : path) (fs : files) : result fitter :=
  let* j := loadfn p fs in fitter_from_json j.

(** ** One fit *)

(** [np.loadtxt]: a table, a list for a table of one column or one row, one number for one entry. *)
Inductive array :=
  | Scalar (q : Q)
  | Vector (l : list Q)
  | Matrix (rows : list (list Q)).
Definition squeeze (rows : list (list Q)) : array :=
  match rows with
  | [[q]] => Scalar q
  | [row] => Vector row
  | _ => if forallb (fun row => Nat.eqb (length row) 1) rows then Vector (concat rows) else Matrix rows
  end.
Definition same_lengths (rows : list (list Q)) : bool :=
  match rows with [] => true | row :: _ => forallb (fun r => Nat.eqb (length r) (length row)) rows end.
Definition loadtxt (p : path) (fs : files) : result array :=
  match dget fs p with
  | None => Err FileNotFoundError
  | Some (CNumbers rows) => if same_lengths rows then Ok (squeeze rows) else Err ValueError
  | Some _ => Err ValueError
  end.

Record fit_args := FitArgs {
  a_alpha : json;
  a_max_iter : Z;
  a_ekra : path;
  a_keci : path;
  a_weight : path;
  a_corr : path;
  a_params : option path;
  a_history : option path;
  a_results : option path;
  a_normalize : bool;
  a_fingerprints : option (list string);
  a_env_hash : option string;
}.

Definition given (p : option path) : option path :=
  match p with Some [] | None => None | Some q => Some q end.
Definition text_list (l : option (list string)) : pyval :=
  match l with Some l => PJson (JList (map JStr l)) | None => none end.
Definition text_or_none (s : option string) : pyval :=
  match s with Some s => PJson (JStr s) | None => none end.
Definition float_list (l : list Q) : pyval := PJson (JList (map JFloat l)).

Section Fit.
  (** [_fit_lasso_values] (coefficients and constant), [_leave_one_out_rmse] and
      [root_mean_squared_error] as numbers of the machine: [FitModel] has them as real numbers.
      They raise if the numbers of rows do not agree. *)
  Variable regress : list (list Q) -> list Q -> list Q -> json -> Z -> bool -> result (list Q * Q).
  Variable loocv : list (list Q) -> list Q -> json -> Z -> bool -> result Q.
  Variable rmse : list (list Q) -> list Q -> list Q -> Q -> result Q.
  (** A number printed with "%.8f" and read again. *)
  Variable round8 : Q -> Q.
  (** [_save_fit_results_history] (fitter.py:77-130): the file it leaves, from the record and what
      the file held; it never raises. *)
  Variable save_results : params -> option content -> content.

  (** fitter.py:360-374. *)
  Definition fitted_record (args : fit_args) (now : Q * string) (keci : list Q) (empty : Q) (weight : list Q)
      (rms cv : Q) : params :=
    Params (float_list keci) (PJson (JFloat empty)) (PJson (JList [])) (float_list weight) (PJson (a_alpha args))
      (PJson (JFloat (fst now))) (PJson (JStr (snd now))) (PJson (JFloat rms)) (PJson (JFloat cv))
      (PJson (JBool (a_normalize args))) (text_list (a_fingerprints args)) (text_or_none (a_env_hash args))
      none default_name.

  (** fitter.py:310-355: everything that comes before the first file is written.  A table that is
      read as a list or a number is refused by numpy or scikit-learn: setting an entry of the number
      [x_scale] is a TypeError. *)
  Definition compute_fit (args : fit_args) (now : Q * string) (fs : files) : result params :=
    let* e_kra := loadtxt (a_ekra args) fs in
    let* weight := loadtxt (a_weight args) fs in
    let* corr := loadtxt (a_corr args) fs in
    match corr, e_kra, weight with
    | Matrix x, Vector y, Vector w =>
        let* r := regress x y w (a_alpha args) (a_max_iter args) (a_normalize args) in
        let (keci, empty) := (fst r, snd r) in
        if match a_fingerprints args with
           | Some l => negb (Nat.eqb (length keci) (length l))
           | None => false
           end
        then Err ValueError else
        let* cv := loocv x y (a_alpha args) (a_max_iter args) (a_normalize args) in
        let* rms := rmse x y keci empty in
        Ok (fitted_record args now keci empty w rms cv)
    | Matrix _, _, _ => Err ValueError
    | _, _, _ => Err (if a_normalize args then TypeError else ValueError)
    end.
  (** The coefficients of a record, as [np.savetxt] prints them. *)
  Definition keci_lines (r : params) : content :=
    match p_keci r with
    | PJson (JList l) => CNumbers (map (fun j => match j with JFloat q => [round8 q] | _ => [] end) l)
    | _ => CBroken
    end.

  (** fitter.py:383-403. *)
  Definition update_history (p : path) (r : params) (fs : files) : files * result unit :=
    match dget fs p with
    | Some _ =>
        match history_from_file p fs with
        | Ok h => history_to p (append h r) fs
        | Err e => (fs, Err e)
        end
    | None => history_to p (append [] r) fs
    end.

  (** fitter.py:256-404: the fitter and the files after the call, and how it ended. *)
  Definition fit (f : fitter) (args : fit_args) (now : Q * string) (fs : files) : fitter * files * result params :=
    match compute_fit args now fs with
    | Err e => (f, fs, Err e)
    | Ok r =>
        let fs := dset fs (a_keci args) (keci_lines r) in
        let fs := match given (a_results args) with
                  | Some p => dset fs p (save_results r (dget fs p))
                  | None => fs
                  end in
        let (fs, written) := match given (a_params args) with
                             | Some p => params_to p r fs
                             | None => (fs, Ok tt)
                             end in
        match written with
        | Err e => (r, fs, Err e)
        | Ok _ =>
            let (fs, appended) := match given (a_history args) with
                                  | Some p => update_history p r fs
                                  | None => (fs, Ok tt)
                                  end in
            match appended with
            | Err e => (r, fs, Err e)
            | Ok _ => (r, fs, Ok r)
            end
        end
    end.

  (** Several fits in a row, until one raises. *)
  Fixpoint fits (f : fitter) (calls : list (fit_args * (Q * string))) (fs : files) : fitter * files * result (list params) :=
    match calls with
    | [] => (f, fs, Ok [])
    | (args, now) :: calls' =>
        match fit f args now fs with
        | (f, fs, Err e) => (f, fs, Err e)
        | (f, fs, Ok r) =>
            match fits f calls' fs with
            | (f, fs, Ok rs) => (f, fs, Ok (r :: rs))
            | other => other
            end
        end
    end.
End Fit.
