(** Vocabulary for the properties of NEB data. *)
From Coq Require Import QArith.
From Verif Require Import Py Json StateModel ParamModel FitFilesModel NebModel.

Section Spec.
  Context {M Ref S : Type}.
  Variable features : M -> option Ref -> S -> Q * Q -> result (list Z * list Q).
  Variable read : path -> dict string json -> result S.
  Variable name_of_model : M -> json.

  (** What a loader says about one structure. *)
  Record row := Row {
    r_structure : S;
    r_value : Q;
    r_metadata : option (dict string json);
    r_occupation : list Z;
    r_correlation : list Q;
  }.
  Definition row_of (e : entry (S := S)) : option row :=
    match e_vectors e with
    | Some (occ, corr) => Some (Row (e_structure e) (e_value e) (e_metadata e) occ corr)
    | None => None
    end.
  (** The rows of a loader, in order. *)
  Definition rows (m : memory (S := S)) (l : loader (M := M) (Ref := Ref)) : list row := omap row_of (held m l).

  (** The vectors of a row are those of its structure. *)
  Definition computed (r : row) : Prop :=
    exists model reference tol, features model reference (r_structure r) tol = Ok (r_occupation r, r_correlation r).
  (** All rows have vectors of the same lengths. *)
  Definition uniform (rs : list row) : Prop :=
    forall r r', r ∈ rs -> r' ∈ rs -> length (r_occupation r) = length (r_occupation r') /\ length (r_correlation r) = length (r_correlation r').

  (** Loaders after any calls, each returning or raising, in which no entry is given to the loader
      that already has it. *)
  Inductive reached : memory (S := S) -> loader (M := M) (Ref := Ref) -> Prop :=
    | reached_new model reference l : new_loader name_of_model model reference None = Ok l -> reached [] l
    | reached_call m l c m' l' r : reached m l -> (forall id a, c = Add id a -> id ∉ l_entries l) ->
        perform features read name_of_model m l c = (m', l', r) -> reached m' l'.

  (** A structure, its value and its metadata became a row.  The metadata of a row from a file
      are those given with the file's path as "structure_file", unless they have one already. *)
  Definition row_from (kw : dict string json) (item : source (S := S) * Q * option (dict string json)) (r : row) : Prop :=
    let given := match snd item with Some d => d | None => [] end in
    r_value r = snd (fst item) /\
    match fst (fst item) with
    | Given s => kw = [] /\ r_structure r = s /\ r_metadata r = Some given
    | File p =>
        read p kw = Ok (r_structure r) /\
        exists metadata, r_metadata r = Some metadata /\
          (forall k, k <> "structure_file"%string -> dget metadata k = dget given k) /\
          (forall v, dget given "structure_file" = Some v -> dget metadata "structure_file" = Some v) /\
          (dget given "structure_file" = None ->
           dget metadata "structure_file" = Some (JStr (string_of_list_ascii p)))
    end.
End Spec.
