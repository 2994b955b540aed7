(** Vocabulary for the statements about the simulation engine. *)
From Verif Require Import Py ActiveSiteModel EventModel EventSpec StateModel HopModel KmcModel.

Section KmcSpec.
  Context {T M : Type}.
  Variable add : T -> T -> T.
  Variable model_apply : M -> event -> list Z -> result M.
  Variable compute_probability : M -> list Z -> event -> result T.
  Variable select : list T -> T -> T -> result (nat * T).

  (** The stored rate of every event is what the model computes now. *)
  Definition fresh (k : kmc T M) : Prop :=
    length (k_prob k) = length (events (k_lib k)) /\
    forall i e, events (k_lib k) !! i = Some e -> exists r,
      k_prob k !! i = Some r /\
      compute_probability (k_model k) (occupations (k_state k)) e = Ok r.

  (** Entry 0 is the first rate; each later entry adds the next rate to the previous
      entry. *)
  Definition running_sums (p cum : list T) : Prop :=
    length cum = length p /\ head cum = head p /\
    forall i s x, cum !! i = Some s -> p !! S i = Some x -> cum !! S i = Some (add s x).

  (** Committing [e] leaves the rate of every event that has no site in common with
      it unchanged (for occupation lists of length [n]). *)
  Definition rates_local (es : list event) (n : nat) : Prop :=
    forall m occ e occ' m' e', length occ = n -> e ∈ es -> e' ∈ es ->
      swap_occupations occ e = Ok occ' -> model_apply m e occ' = Ok m' ->
      ~ share_site e e' ->
      compute_probability m' occ' e' = compute_probability m occ e'.

  (** The rate of an event is a function of the contents of its own sites. *)
  Definition reads_own_sites : Prop :=
    forall m occ occ' e, length occ' = length occ ->
      (forall s, touches e s -> (0 <= s < Z.of_nat (length occ))%Z) ->
      (forall s, touches e s -> occ' !! Z.to_nat s = occ !! Z.to_nat s) ->
      compute_probability m occ' e = compute_probability m occ e.

  (** A stretch of simulation: from call [i] of the generator, the events taken with
      their waiting times; [clock] tells how much of a waiting time is put on the
      clock (all of it in production, nothing in equilibration). *)
  Inductive walk (clock : T -> T) (draws : nat -> T * T)
    : nat -> kmc T M -> list (event * T) -> kmc T M -> Prop :=
  | walk_stop i k : walk clock draws i k [] k
  | walk_step i k e dt k1 rest k2 :
      propose select k (fst (draws i)) (snd (draws i)) = Ok (e, dt) ->
      update add model_apply compute_probability k e (clock dt) = Ok k1 ->
      walk clock draws (S i) k1 rest k2 ->
      walk clock draws i k ((e, dt) :: rest) k2.
End KmcSpec.

(** Both endpoints use the same code for the mobile species and the same code for the
    vacancy, and the two differ. *)
Definition endpoint_consistent (c : codes4) : Prop :=
  let '(mobile_from, vacancy_to, vacancy_from, mobile_to) := c in
  mobile_from = mobile_to /\ vacancy_to = vacancy_from /\ mobile_from <> vacancy_to.
