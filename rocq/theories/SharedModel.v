(** Several KMC objects made with one model object (kmc.py:52-158, 398-456).  Each object
    keeps its own state, rates and event library; the model object, with what it caches,
    is shared: making an object initialises it again, an accepted event of any object is
    committed to it. *)
From Verif Require Import Py ActiveSiteModel EventModel StateModel HopModel KmcModel
  SiteEnergyModel.

Section Shared.
  Context {T : Type}.
  Variable add : T -> T -> T.
  Context {M : Type}.
  (** [initialize_state] of a model object that may have been used before. *)
  Variable reinitialize : M -> list Z -> event_lib -> result M.
  Variable model_apply : M -> event -> list Z -> result M.
  Variable compute_probability : M -> list Z -> event -> result T.
  Variable select : list T -> T -> T -> result (nat * T).

  (** The model object and the KMC objects in the order they were made.  The field
      [k_model] of an object is what the model was when the object last used it. *)
  Definition system : Type := M * list (kmc T M).

  Definition with_model (k : kmc T M) (m : M) : kmc T M :=
    {| k_lib := k_lib k; k_lookup := k_lookup k; k_state := k_state k; k_model := m;
       k_prob := k_prob k; k_cum := k_cum k |}.

  (** [Make]: [KMC(...)], kmc.py:52-135.  [Step i u]: one iteration of the run loop of the
      [i]-th object with the two random numbers [u], kmc.py:537-542. *)
  Inductive use :=
    | Make (lib : event_lib) (lk : option lookup) (st : state T)
    | Step (i : nat) (u : T * T).

  Definition perform (s : system) (a : use) : result system :=
    match a with
    | Make lib lk st =>
        let* k := construct add (reinitialize (fst s)) compute_probability lib lk st in
        Ok (k_model k, (snd s ++ [k])%list)
    | Step i u =>
        match snd s !! i with
        | None => Err IndexError
        | Some k =>
            let k := with_model k (fst s) in
            let* ed := propose select k (fst u) (snd u) in
            let* k' := update add model_apply compute_probability k (fst ed) (snd ed) in
            Ok (k_model k', <[i := k']> (snd s))
        end
    end.
  Definition performs (s : system) (l : list use) : result system := rfold perform s l.
End Shared.
Arguments use : clear implicits.

(** site_energy.py:181-186, 209-236: initialising a site-energy model again makes its
    tables and its external occupation anew; the evaluator, given to the constructor or
    made at the first initialisation, is kept. *)
Definition se_reinitialize (text : ext_value -> string) parse_int parse_float {Rt}
    (cfg : se_config) (given : option (string * nat)) (m : cache Rt) (occ : list Z)
    (lib : event_lib) : result (cache Rt) :=
  initialize_state text parse_int parse_float (Ok (sc_runtime m)) cfg given occ lib.
