(** Model of kmcpy/models/composite_lce_model.py over the real numbers. *)
From Coq Require Import Reals.
From Verif Require Import Py Json ActiveSiteModel EventModel StateModel HopModel LceModel.
Local Open Scope R_scope.

(** units.py: Boltzmann constant in meV/K. *)
Definition k_B : R := 8617333262145 / 100000000000000.

Definition Rcompute (l : lce R) (occ : list Z) (e : event) : result R :=
  lce_compute 0 1 Rplus Rmult IZR l occ e.

Section Composite.
  (** A site model that is not an LCE model: private state [E] with its own
      initialise, apply and compute ([SiteEnergyModel] or any object with a callable
      [compute]). *)
  Context {E : Type}.
  Variable ext_initialize : list Z -> event_lib -> result E.
  Variable ext_apply : E -> event -> list Z -> result E.
  Variable ext_compute : E -> list Z -> event -> result R.

  Inductive site_model := NoSite | LceSite (l : lce R) | ExternalSite.

  (** composite_lce_model.py:77-118. *)
  Record composite := Composite {
    kra_model : option (lce R);
    c_site : site_model;
  }.

  (** lines 127-145.  Only LCE values are multiplied by the direction: an LCE site
      model is fitted for the canonical orientation. *)
  Definition site_energy_difference (c : composite) (m : E) (occ : list Z) (e : event)
      (direction : Z) : result R :=
    match c_site c with
    | NoSite => Ok 0
    | LceSite l => let* v := Rcompute l occ e in Ok (IZR direction * v)
    | ExternalSite => ext_compute m occ e
    end.

  (** lines 147-171: the KRA model has no [initialize_state]; only an external site
      model does. *)
  Definition composite_initialize (c : composite) (init : E) (occ : list Z)
      (lib : event_lib) : result E :=
    match c_site c with
    | ExternalSite => ext_initialize occ lib
    | _ => Ok init
    end.

  (** lines 173-178. *)
  Definition composite_apply (c : composite) (m : E) (e : event) (occ : list Z) : result E :=
    match c_site c with
    | ExternalSite => ext_apply m e occ
    | _ => Ok m
    end.

  (** lines 180-236.  [e_kra + delta/2] over [k*T]; at [T = 0] the source divides by
      zero. *)
  Definition compute_probability (c : composite) (lk : option lookup) (v temperature : R)
      (m : E) (occ : list Z) (e : event) : result R :=
    let* codes := event_codes lk e in
    let* direction := event_direction occ e codes in
    if (direction =? 0)%Z then Ok 0
    else match kra_model c with
         | None => Err AttributeError
         | Some kra =>
             let* e_kra := Rcompute kra occ e in
             let* delta := site_energy_difference c m occ e direction in
             let e_barrier := e_kra + delta / 2 in
             if Req_EM_T (k_B * temperature) 0 then Err ZeroDivisionError
             else Ok (v * exp (- e_barrier / (k_B * temperature)))
         end.
End Composite.
