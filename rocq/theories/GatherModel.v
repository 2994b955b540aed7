(** Model of kmcpy/tools/gather_kmc_data.py and kmcpy/tools/gather_mc_data.py: collecting the results of many
    runs into one table, and occupations from the final structures of Monte Carlo runs. *)
From Coq Require Import QArith Ascii.
From Verif Require Import Py Json MatcherModel CallbackModel GuiModel TrackerModel TransportModel.
Local Open Scope string_scope.

(** [s.split(sep)[0]]: the text before the first occurrence. *)
Fixpoint before (sep s : string) : string :=
  if String.prefix sep s then "" else match s with "" => "" | String c s' => String c (before sep s') end.
(** [os.path.split(s)[-1]]: the text after the last slash. *)
Definition last_name (s : string) : string := match split_last "/" s with Some (_, b) => b | None => s end.

Section Gather.
  (** [float] and [int] of a text; a composition that is not a number is left out. *)
  Variable parse_float : string -> result Q.
  Variable parse_int : string -> result Z.

  (** The second and third part of a name. *)
  Definition labels (name : string) : result (Q * Z) :=
    let parts := split_all "_" name in
    let* x := (let* t := item parts 1 in parse_float t) in
    let* i := (let* t := item parts 2 in parse_int t) in
    Ok (x, i).

  (** A row of a table; a column that a row does not have is NaN there. *)
  Notation row := (dict string json).
  (** [pd.read_csv]. *)
  Variable read_csv : string -> result (list row).
  (** gather_kmc_data.py:34-42: one file. *)
  Definition read_results (location : string) : result (list row) :=
    let* xi := labels (before ".csv.gz" location) in
    let* rows := read_csv location in
    Ok (map (fun r => dset (dset r "comp" (JFloat (fst xi))) "structure_index" (JInt (snd xi))) rows).
  (** gather_kmc_data.py:29-49.  The rows of each file are numbered from zero.  Concatenating no tables and
      inserting a column that exists are ValueErrors; a table without rows has no columns here. *)
  Definition gather_kmc (locations : list string) : result (list row) :=
    let* tables := rmapM read_results locations in
    match tables with
    | [] => Err ValueError
    | _ =>
        let rows := concat (map (imap (fun k (r : row) => (k, r))) tables) in
        if existsb (fun kr => din (snd kr) "n_pass") rows then Err ValueError
        else Ok (map (fun kr => ("n_pass", JInt (Z.of_nat (fst kr))) :: snd kr) rows)
    end.

  (** ** Occupations, gather_mc_data.py:82-146 *)
  (** The distance of two sites by the rounded difference is below 1e-6; exact instead of float64. *)
  Definition close (lattice : vec * vec * vec) (template c : vec) : bool :=
    let d := vsub c template in
    let d := vsub d (vround d) in
    negb (Qle_bool (1 # 1000000000000) (norm2 (cartesian lattice d))).
  (** [a in b] of texts. *)
  Definition text_in (a b : string) : bool := match String.index 0 a b with Some _ => true | None => false end.
  Definition occ_of (lattice : vec * vec * vec) (casm : list (string * vec)) (t : string * vec) : Z :=
    match List.filter (fun c => close lattice (snd t) (snd c)) casm with
    | c :: _ => if text_in (fst c) (fst t) then (-1)%Z else 1%Z
    | [] => 1%Z
    end.
  (** A structure: lattice, symbols and fractional coordinates.  Reading the file is a parameter. *)
  Record crystal := Crystal { c_lattice : vec * vec * vec; c_sites : list (string * vec) }.
  Variable read_structure : string -> result crystal.
  Definition framework (symbol : string) : bool := String.eqb symbol "Zr" || String.eqb symbol "O".
  (** gather_mc_data.py:82-102. *)
  Definition get_occ (file : string) (template : crystal) : result (list Z) :=
    let* s := read_structure file in
    let casm := List.filter (fun c => negb (framework (fst c))) (c_sites s) in
    Ok (map (occ_of (c_lattice template) casm) (c_sites template)).
  (** gather_mc_data.py:33-54. *)
  Record mc_row := McRow { m_comp : Q; m_index : Z; m_occ : list Z }.
  Definition mc_leb (a b : mc_row) : bool :=
    if Qeq_bool (m_comp a) (m_comp b) then (m_index a <=? m_index b)%Z else Qle_bool (m_comp a) (m_comp b).
  Definition final_structure (location : string) : string := location ++ "/conditions.0/trajectory/POSCAR.final".
  Definition gather_mc (locations : list string) (template : crystal) : result (list mc_row) :=
    match locations with
    | [] => Err IndexError
    | _ =>
        let* occ := rmapM (fun l => get_occ (final_structure l) template) locations in
        let* labels := rmapM (fun l => labels (last_name l)) locations in
        Ok (sorted mc_leb (zip_with (fun xi o => McRow (fst xi) (snd xi) o) labels occ))
    end.
End Gather.
