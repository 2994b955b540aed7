(** Model of kmcpy/io/neb/data.py: the entries and the loader of NEB data, and the files it writes
    for a fit.  Structures, models and references are opaque; a number in a file printed with
    "%.18e" is the number itself, since 19 digits fix a binary64 number. *)
From Coq Require Import QArith.
From Verif Require Import Py Json StateModel ParamModel FitFilesModel.
Local Open Scope string_scope.

Section Neb.
  Context {M Ref S : Type}.
  (** [LocalClusterExpansion.get_occ_corr_from_structure] with a reference (its own one if [None])
      and the two tolerances; [Structure.from_file] with its keyword arguments; the name of a model. *)
  Variable features : M -> option Ref -> S -> Q * Q -> result (list Z * list Q).
  Variable read : path -> dict string json -> result S.
  Variable name_of_model : M -> json.

  (** data.py:54-68.  The vectors are set together. *)
  Record entry := Entry {
    e_structure : S;
    e_value : Q;
    e_vectors : option (list Z * list Q);
    e_metadata : option (dict string json);
  }.
  (** Entries are mutable objects: [memory] has them, and an entry is its position there. *)
  Definition memory := list entry.
  (** data.py:155-174. *)
  Record loader := Loader {
    l_entries : list nat;
    l_model : option M;
    l_reference : option Ref;
    l_name : option json;
  }.
  Definition new_loader (model : option M) (reference : option Ref) (exclude : option (list string)) : result loader :=
    match exclude with
    | Some _ => Err ValueError
    | None => Ok (Loader [] model reference (name_of_model <$> model))
    end.

  (** A structure, or a file of one (data.py:25-51). *)
  Inductive source := Given (s : S) | File (p : path).
  Definition path_text (p : path) : string := string_of_list_ascii p.
  Definition setdefault (d : dict string json) (k : string) (v : json) : dict string json :=
    match dget d k with Some _ => d | None => dset d k v end.
  Definition load_source (x : source) (metadata : option (dict string json)) (kw : dict string json) : result (S * dict string json) :=
    let metadata := match metadata with Some d => d | None => [] end in
    match x with
    | Given s => match kw with [] => Ok (s, metadata) | _ => Err ValueError end
    | File p => let* s := read p kw in Ok (s, setdefault metadata "structure_file" (JStr (path_text p)))
    end.
  (** data.py:70-101. *)
  Definition from_structure (x : source) (value : Q) (metadata : option (dict string json)) (kw : dict string json) : result entry :=
    let* sm := load_source x metadata kw in
    Ok (Entry (fst sm) value None (Some (snd sm))).

  (** The arguments [model], [reference_local_lattice_structure], [exclude_species], [tol] and
      [angle_tol]. *)
  Record how := How {
    h_model : option M;
    h_reference : option Ref;
    h_exclude : option (list string);
    h_tol : Q * Q;
  }.
  Definition either {A} (x y : option A) : option A := match x with Some _ => x | None => y end.

  (** data.py:103-142, 189-248: the memory and the loader after the call, and how it ended.  An
      argument that is no entry is a position outside the memory. *)
  Definition add (m : memory) (l : loader) (id : nat) (a : how) : memory * loader * result unit :=
    match h_exclude a with
    | Some _ => (m, l, Err ValueError)
    | None =>
        match m !! id with
        | None => (m, l, Err ValueError)
        | Some e =>
            match either (h_model a) (l_model l) with
            | None => (m, l, Err ValueError)
            | Some model =>
                match features model (either (h_reference a) (l_reference l)) (e_structure e) (h_tol a) with
                | Err x => (m, l, Err x)
                | Ok v =>
                    let m := <[id := Entry (e_structure e) (e_value e) (Some v) (e_metadata e)]> m in
                    let fits := match l_entries l with
                                | [] => true
                                | first :: _ =>
                                    match m !! first with
                                    | Some (Entry _ _ (Some w) _) =>
                                        Nat.eqb (length (fst v)) (length (fst w)) && Nat.eqb (length (snd v)) (length (snd w))
                                    | _ => false (* entries of a loader have vectors *)
                                    end
                                end in
                    if fits
                    then (m, Loader (l_entries l ++ [id])%list (Some model) (l_reference l) (Some (name_of_model model)), Ok tt)
                    else (m, l, Err ValueError)
                end
            end
        end
    end.
  (** data.py:250-296. *)
  Definition add_structure (m : memory) (l : loader) (x : source) (value : Q) (metadata : option (dict string json)) (a : how)
      (kw : dict string json) : memory * loader * result unit :=
    match from_structure x value metadata kw with
    | Err e => (m, l, Err e)
    | Ok e => add (m ++ [e])%list l (length m) a
    end.
  (** data.py:298-349. *)
  Fixpoint add_each (m : memory) (l : loader) (items : list (source * Q * option (dict string json))) (a : how) (kw : dict string json)
      : memory * loader * result unit :=
    match items with
    | [] => (m, l, Ok tt)
    | (x, value, metadata) :: items' =>
        match add_structure m l x value metadata a kw with
        | (m, l, Ok _) => add_each m l items' a kw
        | stopped => stopped
        end
    end.
  Definition add_structures (m : memory) (l : loader) (structures : list source) (values : list Q)
      (metadata : option (list (option (dict string json)))) (a : how) (kw : dict string json) : memory * loader * result unit :=
    if negb (Nat.eqb (length structures) (length values)) then (m, l, Err ValueError)
    else match metadata with
         | None => add_each m l (zip (zip structures values) (repeat None (length structures))) a kw
         | Some ms =>
             if negb (Nat.eqb (length ms) (length structures)) then (m, l, Err ValueError)
             else add_each m l (zip (zip structures values) ms) a kw
         end.
  (** data.py:351-400. *)
  Definition from_structures (m : memory) (structures : list source) (values : list Q)
      (metadata : option (list (option (dict string json)))) (a : how) (kw : dict string json) : memory * result loader :=
    match new_loader (h_model a) (h_reference a) (h_exclude a) with
    | Err e => (m, Err e)
    | Ok l =>
        match add_structures m l structures values metadata (How None None (h_exclude a) (h_tol a)) kw with
        | (m, l, Ok _) => (m, Ok l)
        | (m, _, Err e) => (m, Err e)
        end
    end.

  (** ** What the loader holds *)

  (** [np.array] of lists of one length; lists of different lengths are refused. *)
  Definition np_table {A} (rows : list (list A)) : result (list (list A)) :=
    match rows with
    | [] => Ok []
    | row :: _ => if forallb (fun r => Nat.eqb (length r) (length row)) rows then Ok rows else Err ValueError
    end.
  Definition held (m : memory) (l : loader) : list entry := omap (fun id => m !! id) (l_entries l).
  (** An entry of a loader has vectors; one without them is written TypeError. *)
  Definition vectors (m : memory) (l : loader) : result (list (list Z * list Q)) :=
    rmapM (fun e => match e_vectors e with Some v => Ok v | None => Err TypeError end) (held m l).
  (** data.py:402-418. *)
  Definition get_correlation_matrix (m : memory) (l : loader) : result (list (list Q)) :=
    match l_entries l with
    | [] => Err ValueError
    | _ => let* vs := vectors m l in np_table (map snd vs)
    end.
  Definition get_occupation_matrix (m : memory) (l : loader) : result (list (list Z)) :=
    match l_entries l with
    | [] => Err ValueError
    | _ => let* vs := vectors m l in np_table (map fst vs)
    end.
  Definition get_properties (m : memory) (l : loader) : result (list Q) :=
    match l_entries l with
    | [] => Err ValueError
    | _ => Ok (map e_value (held m l))
    end.

  (** ** Files *)

  (** data.py:420-452; [p] is the file in the output directory.  [json.dump] of the data cannot fail:
      metadata are JSON values. *)
  Definition data_payload (m : memory) (l : loader) : result json :=
    let* corr := get_correlation_matrix m l in
    let* occ := get_occupation_matrix m l in
    let* values := get_properties m l in
    Ok (JObj
      [("correlation_matrix", JList (map (fun row => JList (map JFloat row)) corr));
       ("occupation_matrix", JList (map (fun row => JList (map JInt row)) occ));
       ("properties", JList (map JFloat values));
       ("metadata", JList (map (fun e => JObj (match e_metadata e with Some d => d | None => [] end)) (held m l)));
       ("n_structures", JInt (Z.of_nat (length (l_entries l))));
       ("model_name", match l_name l with Some n => n | None => JStr "unknown" end)]).
  Definition loader_to (p : path) (m : memory) (l : loader) (fs : files) : files * result unit :=
    match data_payload m l with
    | Err e => (fs, Err e)
    | Ok j => (dset fs p (CDoc j), Ok tt)
    end.

  (** data.py:454-463. *)
  Definition as_weights (w : Q + list Q) (n : nat) : result (list Q) :=
    match w with
    | inl q => Ok (repeat q n)
    | inr l => if Nat.eqb (length l) n then Ok l else Err ValueError
    end.
  (** [np.savetxt]; a row without numbers is an empty line, which [np.loadtxt] skips. *)
  Definition savetxt (p : path) (rows : list (list Q)) (fs : files) : files :=
    dset fs p (CNumbers (List.filter (fun row => negb (Nat.eqb (length row) 0)) rows)).
  (** data.py:465-505; the three files in the output directory, which can be made. *)
  Definition write_fitting_inputs (corr ekra weight : path) (w : Q + list Q) (m : memory) (l : loader) (fs : files) : files * result unit :=
    match l_entries l with
    | [] => (fs, Err ValueError)
    | _ =>
        match get_correlation_matrix m l with
        | Err e => (fs, Err e)
        | Ok table =>
            let fs := savetxt corr table fs in
            match get_properties m l with
            | Err e => (fs, Err e)
            | Ok values =>
                let fs := savetxt ekra (map (fun q => [q]) values) fs in
                match as_weights w (length (l_entries l)) with
                | Err e => (fs, Err e)
                | Ok ws => (savetxt weight (map (fun q => [q]) ws) fs, Ok tt)
                end
            end
        end
    end.

  (** Calls in any order, each of which may raise and be ignored.  [Make] is a user's own
      [NEBEntry.from_structure]. *)
  Inductive call :=
    | Make (x : source) (value : Q) (metadata : option (dict string json)) (kw : dict string json)
    | Add (id : nat) (a : how)
    | AddOne (x : source) (value : Q) (metadata : option (dict string json)) (a : how) (kw : dict string json)
    | AddMany (structures : list source) (values : list Q) (metadata : option (list (option (dict string json)))) (a : how) (kw : dict string json).
  Definition perform (m : memory) (l : loader) (c : call) : memory * loader * result unit :=
    match c with
    | Make x value metadata kw =>
        match from_structure x value metadata kw with
        | Ok e => ((m ++ [e])%list, l, Ok tt)
        | Err e => (m, l, Err e)
        end
    | Add id a => add m l id a
    | AddOne x value metadata a kw => add_structure m l x value metadata a kw
    | AddMany structures values metadata a kw => add_structures m l structures values metadata a kw
    end.
End Neb.
