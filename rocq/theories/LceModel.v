(** Model of kmcpy/models/local_cluster_expansion.py: orbits, correlation vectors,
    parameter validation and [compute].  Numbers are a parameter [T] with the
    operations the code uses; the properties instantiate it with the reals.  The
    geometry that produces the cluster tables is not modelled here (see
    [MatcherModel] for the equality test between clusters). *)
From Verif Require Import Py Json ActiveSiteModel EventModel.

(** local_cluster_expansion.py:474-497 with [i in orbit_clusters] and
    [orbit_clusters.index(i)] both scanning with [==] ([eqb representative i]).  The
    two parallel lists of the source are one list of (representative, members);
    clusters come from [itertools.combinations], so the identity shortcut of [in]
    never applies.  An Orbit is the list of its clusters (cluster.py:77-86). *)
Section Orbits.
  Context {C : Type}.
  Variable eqb : C -> C -> bool.

  Fixpoint add_to_orbit (i : C) (orbits : list (C * list C)) : list (C * list C) :=
    match orbits with
    | [] => [(i, [i])]
    | (rep, members) :: rest =>
        if eqb rep i then (rep, members ++ [i]) :: rest
        else (rep, members) :: add_to_orbit i rest
    end.

  Definition build_orbits (clusters : list C) : list (list C) :=
    map snd (fold_left (fun orbits i => add_to_orbit i orbits) clusters []).
End Orbits.

Section Lce.
  Context {T : Type}.
  Variable zero one : T.
  Variable add mul : T -> T -> T.
  Variable of_Z : Z -> T.

  (** The attributes of a LocalClusterExpansion object that [compute] and
      [set_parameters] read.  [l_features] is [get_orbit_fingerprints()]
      (lines 276-282); [l_decorations] is (correlation_basis_indices,
      site_basis_values), [None] for bases that do not use state indices. *)
  Record lce := Lce {
    l_sites : list (list (list Z));
    l_decorations : option (list (list (list Z)) * list (list (list T)));
    l_features : list string;
    l_env_hash : option string;
    l_keci : option (list T);
    l_empty : option T;
    l_param_fingerprints : option (list string);
    l_param_hash : option string;
  }.

  (** lines 284-340.  Warnings (missing fingerprints or hash) are not modelled.
      [expected_hash] is falsy when absent or empty. *)
  Definition truthy (s : option string) : bool :=
    match s with Some t => negb (String.eqb t "") | None => false end.
  Definition validate_parameter_orbits (m : lce) (keci : list T)
      (fingerprints : option (list string)) (hash : option string) : result (list T) :=
    if negb (length (l_features m) =? 0)%nat
       && negb (length keci =? length (l_features m))%nat
    then Err ValueError
    else if truthy (l_env_hash m)
         && (match hash with
             | Some h => negb (bool_decide (Some h = l_env_hash m))
             | None => false end)
    then Err ValueError
    else match fingerprints with
         | None => Ok keci
         | Some l =>
             if negb (length l =? length (l_features m))%nat then Err ValueError
             else if bool_decide (l = l_features m) then Ok keci else Err ValueError
         end.

  (** The argument of set_parameters: an LCEModelParameters object, a dict, or
      anything else.  [parameter_local_site_order] and [_parameters] are not used by
      [compute] and are left out. *)
  Inductive parameters :=
    | ParamObject (keci : list T) (empty : T)
        (fingerprints : option (list string)) (hash : option string)
    | ParamDict (keci : option (list T)) (empty : option T)
        (fingerprints : option (list string)) (hash : option string)
    | ParamOther.

  (** lines 676-689. *)
  Definition read_parameters (p : parameters)
    : result (list T * T * option (list string) * option string) :=
    match p with
    | ParamObject keci empty fps hash => Ok (keci, empty, fps, hash)
    | ParamDict keci empty fps hash =>
        match keci, empty with
        | Some k, Some e => Ok (k, e, fps, hash)
        | _, _ => Err KeyError
        end
    | ParamOther => Err TypeError
    end.

  (** lines 667-710: the object after the call, and how the call ended. *)
  Definition set_parameters (m : lce) (p : parameters) : lce * result unit :=
    match read_parameters p with
    | Err x => (m, Err x)
    | Ok (keci, empty, fps, hash) =>
        match validate_parameter_orbits m keci fps hash with
        | Err x => (m, Err x)
        | Ok k =>
            ({| l_sites := l_sites m; l_decorations := l_decorations m;
                l_features := l_features m; l_env_hash := l_env_hash m;
                l_keci := Some k; l_empty := Some empty;
                l_param_fingerprints :=
                  match fps with Some l => Some l | None => Some (l_features m) end;
                l_param_hash :=
                  match hash with Some h => Some h | None => l_env_hash m end |},
             Ok tt)
        end
    end.

  (** lines 828-846, the innermost loop.  The compiled code does not check bounds;
      here an index outside the array is an IndexError. *)
  Definition cluster_product (occ : list Z) (cluster : list Z) : result T :=
    rfold (fun acc site => let* v := py_get occ site in Ok (mul acc (of_Z v))) one cluster.
  Definition orbit_sum (occ : list Z) (orbit : list (list Z)) : result T :=
    rfold (fun acc cl => let* p := cluster_product occ cl in Ok (add acc p)) zero orbit.
  Definition calc_corr (occ : list Z) (orbits : list (list (list Z))) : result (list T) :=
    rmapM (orbit_sum occ) orbits.

  (** lines 849-875. *)
  Definition site_value (values : list (list (list T))) (occ : list Z)
      (site basis_index : Z) : result T :=
    let* state := py_get occ site in
    let* by_state := py_get values site in
    let* by_basis := py_get by_state state in
    py_get by_basis basis_index.
  Definition decorated_product (values : list (list (list T))) (occ : list Z)
      (basis cluster : list Z) : result T :=
    rfold (fun acc ps =>
             let* b := py_get basis (Z.of_nat (fst ps)) in
             let* v := site_value values occ (snd ps) b in
             Ok (mul acc v)) one (enumerate cluster).
  Definition decorated_sum (values : list (list (list T))) (occ : list Z)
      (basis : list (list Z)) (orbit : list (list Z)) : result T :=
    rfold (fun acc cl =>
             let* b := py_get basis (Z.of_nat (fst cl)) in
             let* p := decorated_product values occ b (snd cl) in
             Ok (add acc p)) zero (enumerate orbit).
  Definition calc_corr_decorated (values : list (list (list T))) (occ : list Z)
      (basis : list (list (list Z))) (orbits : list (list (list Z))) : result (list T) :=
    rmapM (fun io =>
             let* b := py_get basis (Z.of_nat (fst io)) in
             decorated_sum values occ b (snd io)) (enumerate orbits).

  (** lines 604-618. *)
  Definition calculate_correlation (m : lce) (occ : list Z) : result (list T) :=
    match l_decorations m with
    | Some (basis, values) => calc_corr_decorated values occ basis (l_sites m)
    | None => calc_corr occ (l_sites m)
    end.

  (** numpy.inner on two vectors. *)
  Definition inner (a b : list T) : result T :=
    if (length a =? length b)%nat
    then Ok (fold_left (fun acc ab => add acc (mul (fst ab) (snd ab))) (zip a b) zero)
    else Err ValueError.

  (** lines 620-665. *)
  Definition lce_compute (m : lce) (occ : list Z) (e : event) : result T :=
    match l_keci m, l_empty m with
    | Some keci, Some empty =>
        let* keci := validate_parameter_orbits m keci (l_param_fingerprints m)
                       (l_param_hash m) in
        let* local := rmapM (py_get occ) (local_env_indices e) in
        let* corr := calculate_correlation m local in
        let* s := inner corr keci in
        Ok (add s empty)
    | _, _ => Err ValueError
    end.
End Lce.
Arguments lce : clear implicits.
Arguments parameters : clear implicits.
