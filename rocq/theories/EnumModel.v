(** Model of kmcpy/structure/local_environment_enumerator.py. *)
From Coq Require Import QArith.
From Verif Require Import Py Json ActiveSiteModel BasisModel LatticeModel MatcherModel.
Local Open Scope nat_scope.

(** lines 795-796. *)
Definition matches_token (sp : species) (token : spval) : bool :=
  str_in (species_label token) (species_tokens (SObj sp)).
(** lines 791-792; the tokens of [right] are strings. *)
Definition species_same (left right : species) : bool :=
  existsb (fun t => matches_token left (SStr t)) (species_tokens (SObj right)).

(** lines 432-451 with 786-788. *)
Definition allowed_choices (act : lattice) (i : Z) (variable_species : option (list spval))
  : result (list species) :=
  if ((i <? 0) || (Z.of_nat (length (la_template act)) <=? i))%Z then Err IndexError else
  let* a := py_get (la_allowed act) i in
  match a with
  | None | Some [] => Err ValueError
  | Some l =>
      let choices := match variable_species with
                     | None => l
                     | Some tokens => List.filter (fun s => existsb (matches_token s) tokens) l
                     end in
      match choices with [] => Err ValueError | _ => Ok choices end
  end.

(** lines 414-429.  The only ValueError [allowed_choices] can raise here is the one about
    variable species, because the site has several allowed species. *)
Fixpoint variable_default (act : lattice) (variable_species : option (list spval))
    (local : list Z) : result (list Z) :=
  match local with
  | [] => Ok []
  | i :: rest =>
      let* a := py_get (la_allowed act) i in
      let* keep := (if Nat.leb (allowed_length a) 1 then Ok false
                    else match allowed_choices act i variable_species with
                         | Ok c => Ok (Nat.ltb 1 (length c))
                         | Err ValueError => match variable_species with
                                             | Some _ => Ok false
                                             | None => Err ValueError
                                             end
                         | Err e => Err e
                         end) in
      let* r := variable_default act variable_species rest in
      Ok (if keep then i :: r else r)
  end.

(** lines 398-429. *)
Definition resolve_variable_sites (act : lattice) (local : list Z) (given : option (list Z))
    (variable_species : option (list spval)) : result (list Z) :=
  match given with
  | Some l =>
      if negb (forallb (fun i => bool_decide (i ∈ local)) l) then Err ValueError else
      let* _ := rmapM (fun i => allowed_choices act i variable_species) l in
      Ok l
  | None => variable_default act variable_species local
  end.

(** lines 769-772. *)
Definition canonical_counts (counts : option (list (spval * Z))) : option (dict string Z) :=
  match counts with
  | None => None
  | Some l => Some (dof_pairs (map (fun kv => (species_label (fst kv), snd kv)) l))
  end.
Definition zsum (l : list Z) : Z := fold_left Z.add l 0%Z.

(** [Counter(l)], and the equality of two dictionaries. *)
Definition counter (l : list string) : dict string Z :=
  fold_left (fun d x => dset d x (match dget d x with Some n => n + 1 | None => 1 end)%Z) l [].
Definition dict_eqb {K} `{EqDecision K} (a b : dict K Z) : bool :=
  Nat.eqb (length a) (length b) &&
  forallb (fun kv => match dget b (fst kv) with Some v => (v =? snd kv)%Z | None => false end) a.

(** lines 760-766. *)
Definition matches_counts (by_site : dict Z string) (counts : option (dict string Z)) : bool :=
  match counts with
  | None => true
  | Some c => dict_eqb (counter (dvalues by_site)) c
  end.

(** lines 382-395.  [base] is what [filter_active_structure] (ActiveSiteModel) left of the
    given structure. *)
Definition base_occupation (act : lattice) (base : option (list site)) (tol : Q) : result occupation :=
  match base with
  | Some s => get_occ_from_structure act s tol (1, 1, 1) None
  | None => Ok (Occupation (la_basis act)
                  (repeat (match_value (la_basis act)) (length (la_template act))))
  end.

(** lines 23-34, without the label and metadata. *)
Record enumeration := Enumeration {
  en_structure : list site;
  en_full : occupation;
  en_local : list Z;
  en_local_sites : list Z;
  en_variable_sites : list Z;
  en_species : dict Z string;
}.

(** lines 658-677.  Site properties are left out. *)
Definition site_of_original (act : lattice) (o : order) (occ : occupation) (e : nat * site)
  : result (option site) :=
  match dget (original_to_active o) (Z.of_nat (fst e)) with
  | None => Ok (Some (snd e))
  | Some a =>
      let* v := getitem occ (Z.of_nat a) in
      let* sp := species_for_occupation_value act (Z.of_nat a) v in
      Ok (if is_vacancy_species (SObj sp) then None else Some (sp, snd (snd e)))
  end.
Definition keep_some {A} (l : list (option A)) : list A :=
  x ← l; match x with Some a => [a] | None => [] end.
Definition structure_from_active (la act : lattice) (o : order) (occ : occupation)
  : result (list site) :=
  let* l := rmapM (site_of_original act o occ)
              (enumerate (supercell_sites (shape3 (o_shape o)) (la_template la))) in
  Ok (keep_some l).

(** lines 142-148, one site. *)
Definition assign (act : lattice) (occ : occupation) (e : Z * species) : result occupation :=
  let* v := occupation_value_for_species act (fst e) (snd e) in
  let (r, occ') := setitem occ (fst e) v in
  let* _ := r in Ok occ'.

(** lines 134-160, one tuple of choices; [None] when the counts do not match. *)
Definition one_choice (la act : lattice) (o : order) (base : occupation) (local vars : list Z)
    (counts : option (dict string Z)) (choices : list species) : result (option enumeration) :=
  let by_site := dof_pairs (combine vars (map (fun s => species_label (SObj s)) choices)) in
  if negb (matches_counts by_site counts) then Ok None else
  let* occ := rfold (assign act) base (combine vars choices) in
  let* loc := rmapM (getitem occ) local in
  let* s := structure_from_active la act o occ in
  Ok (Some (Enumeration s occ loc local vars by_site)).

(** lines 133-167: the loop stops at [max] results. *)
Fixpoint collect {A B} (f : A -> result (option B)) (max : nat) (l : list A) : result (list B) :=
  match l with
  | [] => Ok []
  | x :: l' =>
      let* r := f x in
      match r with
      | None => collect f max l'
      | Some b =>
          if Nat.leb max 1 then Ok [b]
          else let* bs := collect f (max - 1) l' in Ok (b :: bs)
      end
  end.

Section Enum.
  Variable parse_species : string -> result species.
  Variable fp_hash : fp_payload -> string.

  (** lines 288-291. *)
  Definition active_context (la : lattice) : result (lattice * order) :=
    let* o := get_active_site_order parse_species fp_hash la None in
    let* act := get_active_lattice_structure parse_species fp_hash la None in
    Ok (act, o).

  (** lines 49-167 without [transformation].  [local] is the list of active sites in the
      sphere around the centre in the chosen local order (lines 294-350, pymatgen's
      neighbour search). *)
  Definition enumerate_local_environments (la : lattice) (local : list Z)
      (counts : option (list (spval * Z))) (variable_species : option (list spval))
      (variable_sites : option (list Z)) (base : option (list site)) (max_results : Z) (tol : Q)
    : result (list enumeration) :=
    if (max_results <? 1)%Z then Err ValueError else
    let* (act, o) := active_context la in
    let* b := base_occupation act base tol in
    let* vars := resolve_variable_sites act local variable_sites variable_species in
    let exact := canonical_counts counts in
    if match exact with
       | Some c => negb (zsum (dvalues c) =? Z.of_nat (length vars))%Z
       | None => false
       end then Err ValueError else
    let* choices := rmapM (fun i => allowed_choices act i variable_species) vars in
    collect (one_choice la act o b local vars exact) (Z.to_nat max_results) (product choices).

  (** lines 170-222. *)
  Inductive environment :=
    | FromEnumeration (e : enumeration)
    | FromOccupation (o : occupation)
    | FromValues (l : list Z).

  (** lines 705-718. *)
  Definition environment_occupation (act : lattice) (o : order) (env : environment)
    : result occupation :=
    match env with
    | FromEnumeration e => Ok (en_full e)
    | FromOccupation oc =>
        let* v := select_active_values o (oc_data oc) in occupation_new v (la_basis act) true
    | FromValues l =>
        let* v := select_active_values o l in occupation_new v (la_basis act) true
    end.

  (** lines 754-757. *)
  Definition first_allowed (act : lattice) (i : Z) : result species :=
    let* a := py_get (la_allowed act) i in
    match a with
    | None | Some [] => Err ValueError
    | Some (s :: _) => Ok s
    end.

  (** lines 604-655, one original site: what goes into the initial and the final list. *)
  Definition endpoint_site (act : lattice) (o : order) (full : list site)
      (initial final : occupation) (from to : Z) (e : nat * site) : result (option (site * site)) :=
    match dget (original_to_active o) (Z.of_nat (fst e)) with
    | None => Ok (Some (snd e, snd e))
    | Some a =>
        let* v := getitem initial (Z.of_nat a) in
        let* isp := species_for_occupation_value act (Z.of_nat a) v in
        if is_vacancy_species (SObj isp) then Ok None else
        let* fsite :=
          (if (Z.of_nat a =? from)%Z then
             let* orig := py_get (o_a2o o) to in
             let* t := py_get full orig in
             let* fv := getitem final to in
             let* fsp := species_for_occupation_value act to fv in
             Ok (fsp, snd t)
           else
             let* fv := getitem final (Z.of_nat a) in
             let* fsp := species_for_occupation_value act (Z.of_nat a) fv in
             Ok (fsp, snd (snd e))) in
        if is_vacancy_species (SObj (fst fsite)) then Err ValueError
        else Ok (Some ((isp, snd (snd e)), fsite))
    end.

  (** lines 37-46, without metadata. *)
  Record endpoint_pair := EndpointPair {
    ep_initial : list site;
    ep_final : list site;
    ep_initial_occ : occupation;
    ep_final_occ : occupation;
    ep_indices : Z * Z;
  }.

  (** lines 170-222.  The length test of line 653 cannot fail. *)
  Definition generate_neb_endpoint_pair (la : lattice) (env : environment) (mobile : list Z)
    : result endpoint_pair :=
    let* (act, o) := active_context la in
    let* (from, to) := unpack2 mobile in
    let* _ := validate_active_indices o [from; to] in
    if (from =? to)%Z then Err ValueError else
    let* occ := environment_occupation act o env in
    if negb (Nat.eqb (length (oc_data occ)) (active_site_count o)) then Err ValueError else
    let* fs := first_allowed act from in
    let* ts := first_allowed act to in
    if is_vacancy_species (SObj fs) || is_vacancy_species (SObj ts) then Err ValueError else
    if negb (species_same fs ts) then Err ValueError else
    let (r1, occ1) := setitem occ from (match_value (la_basis act)) in
    let* _ := r1 in
    let (r2, initial) := setitem occ1 to (mismatch_value (la_basis act)) in
    let* _ := r2 in
    let* final := flip initial [from; to] in
    let full := supercell_sites (shape3 (o_shape o)) (la_template la) in
    let* pairs := rmapM (endpoint_site act o full initial final from to) (enumerate full) in
    let kept := keep_some pairs in
    Ok (EndpointPair (map fst kept) (map snd kept) initial final (from, to)).

  (** lines 225-285 without metadata. *)
  Definition enumerate_neb_endpoint_pairs (la : lattice) (mobile local : list Z)
      (counts : option (list (spval * Z))) (variable_species : option (list spval))
      (variable_sites : option (list Z)) (base : option (list site)) (max_results : Z) (tol : Q)
    : result (list endpoint_pair) :=
    let* (from, to) := unpack2 mobile in
    let* es := enumerate_local_environments la local counts variable_species variable_sites
                 base max_results tol in
    rmapM (fun e => generate_neb_endpoint_pair la (FromEnumeration e) [from; to]) es.
End Enum.
