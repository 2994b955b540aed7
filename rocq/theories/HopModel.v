(** Model of kmcpy/event/hop.py. *)
From Verif Require Import Py Json ActiveSiteModel EventModel.

(** hop.py:11-12. *)
Definition codes4 : Type := Z * Z * Z * Z.
Definition default_hop_state_codes : codes4 := (0, 1, 1, 0)%Z.
Definition invalid_state : Z := (-1)%Z.

(** hop.py:15-20. *)
Record lookup := HopLookup {
  mobile_state_by_site : list Z;
  vacancy_state_by_site : list Z;
}.

(** hop.py:92-97. *)
Definition is_mobile_label (label mobile : string) : bool := String.eqb label mobile.
Definition is_vacancy_label (label : string) : bool :=
  str_in label ["X"; "Vacancy"; "vacancy"; "Va"; "VA"]%string.

(** hop.py:46-50: the loop over one site's allowed labels; a later match
    overwrites an earlier one. *)
Fixpoint scan_codes (mobile : string) (state_index : nat) (allowed : list string)
    (acc : Z * Z) : Z * Z :=
  match allowed with
  | [] => acc
  | label :: rest =>
      let (m, v) := acc in
      let m := if is_mobile_label label mobile then Z.of_nat state_index else m in
      let v := if is_vacancy_label label then Z.of_nat state_index else v in
      scan_codes mobile (S state_index) rest (m, v)
  end.

(** hop.py:40-50 for one active site. *)
Definition site_codes (o : order) (mobile : string) (primitive_index : Z)
  : result (Z * Z) :=
  let* allowed := py_get (o_allowed o) primitive_index in
  Ok (scan_codes mobile 0 allowed (invalid_state, invalid_state)).

(** hop.py:22-52.  Built orders have as many primitive entries as active sites
    (the source indexes arrays of length [active_site_count] by position in
    [active_to_primitive]). *)
Definition lookup_from_order (o : order) (mobile : string) : result lookup :=
  let* cs := rmapM (site_codes o mobile) (o_a2p o) in
  Ok {| mobile_state_by_site := map fst cs; vacancy_state_by_site := map snd cs |}.

(** hop.py:54-62. *)
Definition annotate_event (lk : lookup) (e : event) : result codes4 :=
  let* ft := unpack2 (mobile_ion_indices e) in
  let (from_site, to_site) := ft in
  let* a := py_get (mobile_state_by_site lk) from_site in
  let* b := py_get (vacancy_state_by_site lk) to_site in
  let* c := py_get (vacancy_state_by_site lk) from_site in
  let* d := py_get (mobile_state_by_site lk) to_site in
  Ok (a, b, c, d).

(** The codes an event carries inside a KMC object: annotated when there is a
    lookup (kmc.py:98-99), the default otherwise (hop.py:73).  Simplification: an
    event annotated by an earlier KMC object and then used without a lookup keeps
    its old annotation in the source. *)
Definition event_codes (lk : option lookup) (e : event) : result codes4 :=
  match lk with
  | None => Ok default_hop_state_codes
  | Some lk => annotate_event lk e
  end.

(** hop.py:79-89. *)
Definition endpoint_direction_from_codes (from_occ to_occ : Z) (codes : codes4) : Z :=
  let '(c0, c1, c2, c3) := codes in
  if (from_occ =? c0)%Z && (to_occ =? c1)%Z then 1%Z
  else if (from_occ =? c2)%Z && (to_occ =? c3)%Z then (-1)%Z
  else 0%Z.

(** hop.py:70-76. *)
Definition event_direction (occ : list Z) (e : event) (codes : codes4) : result Z :=
  let* ft := unpack2 (mobile_ion_indices e) in
  let (from_site, to_site) := ft in
  let* from_occ := py_get occ from_site in
  let* to_occ := py_get occ to_site in
  Ok (endpoint_direction_from_codes from_occ to_occ codes).
