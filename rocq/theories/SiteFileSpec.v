(** Vocabulary for the properties of saved site-energy models. *)
From Coq Require Import Reals QArith.
From Verif Require Import Py Json ActiveSiteModel EventModel StateModel SiteEnergyModel ParamModel SiteFileModel.
From Verif Require LocalBarrierModel.

(** Text without blanks at its ends. *)
Definition plain (s : string) : Prop := LocalBarrierModel.py_strip s = s /\ s <> ""%string.

Section Spec.
  Variable text : ext_value -> string.
  Variable site_hash : option (list (Z * Z)) * option Z * option Z -> string.
  Context {Fc Fa Ro : Type}.
  Notation object := (se_object Fc Fa Ro).

  (** The models that can arise: built, read from a payload, or given the order of a simulation. *)
  Inductive site_model : object -> Prop :=
    | model_built a o : new_object text a = Ok o -> site_model o
    | model_loaded j o : object_from_dict text site_hash j = Ok o -> site_model o
    | model_ordered o given o' : site_model o -> set_order o given = Ok o' -> site_model o'.

  (** The fingerprint of the model's site order, if it has one, has no blanks at its ends (a
      hexadecimal number never has). *)
  Definition plain_order (o : object) : Prop := match o_order o with Some x => plain (o_fp x) | None => True end.
  (** The initial array is what numpy makes of the list of its entries. *)
  Definition kept_array (o : object) : Prop :=
    match o_initial o with Some a => as_array text (a_values a) = a | None => True end.
  (** Everything is given by name. *)
  Definition named (o : object) : Prop := live (o_compute o) = None /\ live (o_apply o) = None /\ live (o_runtime o) = None.

  (** What is left of a model in its file. *)
  Definition bare {A} (c : callable A) : callable A := Callable None (name_of c) (keywords c).
  Definition bare_order (x : order) : order :=
    Order (o_prim_count x) (o_orig_count x) (o_prim_active x) (o_a2o x) (o_a2p x) (o_fixed x) (o_shape x) (o_species x) (o_allowed x) (o_fp x) None.
  Definition saved (o : object) : object :=
    SeObject (bare (o_compute o)) (bare (o_apply o)) (bare (o_runtime o)) (o_site_mapping o) (o_state_mapping o) (o_by_site o)
      (o_initial o) (o_size o) (o_fill o) (o_dtype o) (bare_order <$> o_order o) (o_order_hash o) (o_units o) (o_name o).
End Spec.
