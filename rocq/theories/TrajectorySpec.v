(** What it means for two runs to agree. *)
From Verif Require Import Py ActiveSiteModel EventModel StateModel HopModel KmcModel
  TrackerModel PropertyModel.

(** Two engines that differ at most in the clock and the step counter. *)
Definition same_configuration {T M} (k k' : kmc T M) : Prop :=
  k_lib k = k_lib k' /\ k_lookup k = k_lookup k' /\
  occupations (k_state k) = occupations (k_state k') /\
  k_model k = k_model k' /\ k_prob k = k_prob k' /\ k_cum k = k_cum k'.

(** The same ions at the same sites with the same displacements and hop counts. *)
Definition same_tables {A B} (t : tracker A) (t' : tracker B) : Prop :=
  t_lookup t = t_lookup t' /\ t_locations t = t_locations t' /\
  t_displacement t = t_displacement t' /\ t_hops t = t_hops t'.

(** A table that begins with another one. *)
Definition table_prefix {T V} (r r' : results T V) : Prop :=
  c_time r `prefix_of` c_time r' /\
  c_jump r `prefix_of` c_jump r' /\
  c_tracer r `prefix_of` c_tracer r' /\
  c_conductivity r `prefix_of` c_conductivity r' /\
  c_correlation r `prefix_of` c_correlation r' /\
  c_havens r `prefix_of` c_havens r' /\
  c_msd r `prefix_of` c_msd r'.

(** All hops a tracker counted. *)
Definition total_hops {A} (t : tracker A) : nat := sum_list (t_hops t).
