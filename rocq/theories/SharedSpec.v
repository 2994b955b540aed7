(** An object alone. *)
From Verif Require Import Py ActiveSiteModel EventModel StateModel HopModel KmcModel SharedModel.

(** What the [i]-th object does, when [n] objects exist before: its making and its steps,
    as the actions of an object that is alone (number 0). *)
Fixpoint own {T} (i n : nat) (l : list (use T)) : list (use T) :=
  match l with
  | [] => []
  | Make lib lk st :: l' =>
      if (i =? n)%nat then Make lib lk st :: own i (S n) l' else own i (S n) l'
  | Step j u :: l' => if (i =? j)%nat then Step 0 u :: own i n l' else own i n l'
  end.

(** Two objects that differ at most in the model. *)
Definition same_but_model {T M} (k k' : kmc T M) : Prop :=
  k_lib k = k_lib k' /\ k_lookup k = k_lookup k' /\ k_state k = k_state k' /\
  k_prob k = k_prob k' /\ k_cum k = k_cum k'.

(** A model that remembers nothing: its rates do not depend on what it was told before,
    and it accepts every initialisation and every event. *)
Definition forgetful {T M} (reinitialize : M -> list Z -> event_lib -> result M)
    (model_apply : M -> event -> list Z -> result M)
    (compute_probability : M -> list Z -> event -> result T) : Prop :=
  (forall m m' occ e, compute_probability m occ e = compute_probability m' occ e) /\
  (forall m occ lib, exists m', reinitialize m occ lib = Ok m') /\
  (forall m e occ, exists m', model_apply m e occ = Ok m').

(** A model that initialisation puts into a state of its own. *)
Definition resets {M} (reinitialize : M -> list Z -> event_lib -> result M) : Prop :=
  forall m m' occ lib, reinitialize m occ lib = reinitialize m' occ lib.
