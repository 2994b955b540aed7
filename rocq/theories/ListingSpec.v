(** Columns of the result table by name. *)
From Verif Require Import Py PropertyModel ListingModel.
Local Open Scope nat_scope.

Definition column {T V} (r : results T V) (name : string) : list (option V) :=
  if String.eqb name "msd" then c_msd r
  else if String.eqb name "jump_diffusivity" then c_jump r
  else if String.eqb name "tracer_diffusivity" then c_tracer r
  else if String.eqb name "conductivity" then c_conductivity r
  else if String.eqb name "havens_ratio" then c_havens r
  else if String.eqb name "correlation_factor" then c_correlation r
  else [].

(** [name] is listed as calculated, or as not calculated. *)
Definition listed (l : listing) (name : string) (b : bool) : Prop :=
  if b then name ∈ built_in_enabled l \/ name ∈ attached_enabled l
  else name ∈ built_in_disabled l \/ name ∈ attached_disabled l.
