(** Which class belongs to each type of model. *)
From Verif Require Import Py.
Local Open Scope string_scope.
Inductive registered_for : string -> string -> string -> Prop :=
  | composite_models : registered_for "composite_lce" "kmcpy.models.composite_lce_model" "CompositeLCEModel"
  | cluster_expansions : registered_for "lce" "kmcpy.models.local_cluster_expansion" "LocalClusterExpansion"
  | cluster_expansions_in_full : registered_for "local_cluster_expansion" "kmcpy.models.local_cluster_expansion" "LocalClusterExpansion"
  | barrier_tables : registered_for "local_barrier" "kmcpy.models.local_barrier_model" "LocalBarrierModel"
  | site_energies : registered_for "site_energy" "kmcpy.models.site_energy" "SiteEnergyModel".
