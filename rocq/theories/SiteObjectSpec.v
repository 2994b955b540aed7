(** What a site-energy model object shows. *)
From Verif Require Import Py ActiveSiteModel EventModel SiteEnergyModel SiteObjectModel.
Local Open Scope nat_scope.

(** The object is bound to the active-site order with fingerprint [h]. *)
Definition bound {Rt} (h : string) (o : object Rt) : Prop := site_order_hash (o_config o) = Some h.
(** It is bound to no other order. *)
Definition free_for {Rt} (h : string) (o : object Rt) : Prop :=
  site_order_hash (o_config o) = None \/ bound h o.

(** Two objects that agree in everything but the evaluator. *)
Definition same_but_evaluator {Rt} (o o' : object Rt) : Prop :=
  o_config o = o_config o' /\ o_lookup o = o_lookup o' /\ o_states o = o_states o' /\
  o_by_site o = o_by_site o' /\ o_external o = o_external o'.

(** Two objects that agree in the tables, the external occupation and the evaluator: they
    compute and commit alike. *)
Definition same_use {Rt} (o o' : object Rt) : Prop :=
  o_lookup o = o_lookup o' /\ o_states o = o_states o' /\ o_by_site o = o_by_site o' /\
  o_external o = o_external o' /\ o_runtime o = o_runtime o'.

(** The object holds the tables, the external occupation and the evaluator [m]. *)
Definition holds {Rt} (o : object Rt) (m : cache Rt) : Prop :=
  o_lookup o = Some (t_lookup (sc_tables m)) /\ o_states o = t_states (sc_tables m) /\
  o_by_site o = t_by_site (sc_tables m) /\
  o_external o = Some (sc_dtype m, sc_external m) /\ o_runtime o = Some (sc_runtime m).
