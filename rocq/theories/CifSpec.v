(** Vocabulary for the properties of structures read from CIF files. *)
From Coq Require Import QArith Qround.
From Verif Require Import Py Json MatcherModel TrackerModel CifModel.
Local Open Scope Q_scope.

(** The same coordinates, the same position of the crystal, and positions that agree up to [tol]. *)
Definition equal (a b : vec) : Prop := vx a == vx b /\ vy a == vy b /\ vz a == vz b.
Definition shifted (a : vec) (n : Z * Z * Z) : vec :=
  let '(i, j, k) := n in Vec (vx a + inject_Z i) (vy a + inject_Z j) (vz a + inject_Z k).
Definition same (a b : vec) : Prop := exists n, equal a (shifted b n).
Definition within (tol : Q) (a b : vec) : Prop :=
  exists n, let c := shifted b n in
    Qabs.Qabs (vx a - vx c) < tol /\ Qabs.Qabs (vy a - vy c) < tol /\ Qabs.Qabs (vz a - vz c) < tol.
(** Inside the unit cell. *)
Definition in_cell (a : vec) : Prop := 0 <= vx a < 1 /\ 0 <= vy a < 1 /\ 0 <= vz a < 1.

(** [cs] are the images of [x]: each is one, each image is within the tolerance of one of them, and
    they are more than the tolerance apart. *)
Definition orbit (ops : list operation) (tol : Q) (x : vec) (cs : list vec) : Prop :=
  (forall c, c ∈ cs -> in_cell c /\ exists op, op ∈ ops /\ same c (op x))
  /\ (forall op, op ∈ ops -> exists c, c ∈ cs /\ within tol c (op x))
  /\ (forall i j a b, cs !! i = Some a -> cs !! j = Some b -> i <> j -> ~ within tol a b).

(** The operations of a space group, up to lattice translations. *)
Record space_group (ops : list operation) : Prop := {
  respects : forall op a b, op ∈ ops -> same a b -> same (op a) (op b);
  has_identity : exists op, op ∈ ops /\ forall a, same (op a) a;
  closed : forall op op', op ∈ ops -> op' ∈ ops -> exists op'', op'' ∈ ops /\ forall a, same (op (op' a)) (op'' a);
  has_inverses : forall op, op ∈ ops -> exists op', op' ∈ ops /\ forall a, same (op' (op a)) a;
}.
(** The tolerance does not confuse images of different positions. *)
Definition separated (ops : list operation) (tol : Q) (xs : list vec) : Prop :=
  0 < tol /\ forall x y op op', x ∈ xs -> y ∈ xs -> op ∈ ops -> op' ∈ ops -> within tol (op x) (op' y) -> same (op x) (op' y).
(** Two positions that some operation maps onto each other. *)
Definition equivalent (ops : list operation) (a b : vec) : Prop := exists op, op ∈ ops /\ same (op a) b.

(** The rows that are read, with their species. *)
Definition used (r : row) : bool := match row_species r with Some _ => negb (Qle_bool (row_occu r) 0) | None => false end.
Definition rows_read (rows : list row) : list row := List.filter used rows.
(** The rows written at given coordinates. *)
Definition rows_at (x : vec) (rows : list row) : list row := List.filter (fun r => coord_eqb x (row_coord r)) (rows_read rows).
(** What these rows say: labels one after the other, and the amount of a species. *)
Definition label_at (x : vec) (rows : list row) : string := fold_right String.append ""%string (map row_label (rows_at x rows)).
Definition amount_at (x : vec) (el : string) (rows : list row) : Q :=
  fold_right Qplus 0 (map (fun r => if bool_decide (row_species r = Some el) then row_occu r else 0) (rows_at x rows)).
Definition occupancy_at (x : vec) (rows : list row) : Q := fold_right Qplus 0 (map row_occu (rows_at x rows)).
(** The coordinates in the order in which they are first written. *)
Fixpoint first_written (xs : list vec) : list vec :=
  match xs with
  | [] => []
  | x :: xs' => x :: List.filter (fun y => negb (coord_eqb x y)) (first_written xs')
  end.
Definition positions (rows : list row) : list vec := first_written (map row_coord (rows_read rows)).
(** Equivalent positions are written with the same coordinates. *)
Definition written_once (ops : list operation) (rows : list row) : Prop :=
  forall r r', r ∈ rows_read rows -> r' ∈ rows_read rows -> equivalent ops (row_coord r) (row_coord r') -> equal (row_coord r) (row_coord r').
(** An entry says what the rows at its coordinates say. *)
Definition says (rows : list row) (p : rep) (x : vec) : Prop :=
  rep_coord p = x /\ rep_label p = label_at x rows /\ (forall el, amount (rep_comp p) el == amount_at x el rows)
  /\ total (rep_comp p) == occupancy_at x rows.

(** The amount of a species in a site, if its position is written with the occupancy [t]. *)
Definition share (occupancy_tol t q : Q) : Q := if negb (Qle_bool t 1) && Qle_bool t occupancy_tol then q / t else q.
Definition overfull (occupancy_tol : Q) (rows : list row) (x : vec) : Prop := 1 + (1 # 100000000) < share occupancy_tol (occupancy_at x rows) (occupancy_at x rows).
(** A site tells what is written at the coordinates [x]. *)
Definition tells (occupancy_tol : Q) (rows : list row) (x : vec) (s : site) : Prop :=
  s_label s = label_at x rows /\ forall el, amount (s_comp s) el == share occupancy_tol (occupancy_at x rows) (amount_at x el rows).
(** The images of the positions, with the number of each in its orbit. *)
Definition expanded (xs : list vec) (orbits : list (list vec)) : list (vec * vec * nat) :=
  concat (zip_with (fun x cs => imap (fun i c => (x, c, i)) cs) xs orbits).
(** The sites are the images of the positions that are written, position by position. *)
Definition crystal (ops : list operation) (tol occupancy_tol : Q) (rows : list row) (sites : list site) : Prop :=
  exists orbits, Forall2 (orbit ops tol) (positions rows) orbits
    /\ Forall2 (fun s t => tells occupancy_tol rows (fst (fst t)) s /\ s_coord s = snd (fst t) /\ s_sequence s = snd t) sites (expanded (positions rows) orbits)
    /\ map s_local sites = seq 0 (length sites).
(** Blocks that are left out. *)
Definition left_out (r : result (option (list site))) : Prop := r = Ok None \/ r = Err KeyError \/ r = Err ValueError.
