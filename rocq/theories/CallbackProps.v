(** C90: references to functions and the properties a configuration asks for.
    C91: which keyword arguments the functions of a site-energy model receive. *)
From Coq Require Import QArith Ascii.
From Verif Require Import Py Json PropertyModel ConfigModel CallbackModel CallbackSpec CallbackProofs.
Local Open Scope string_scope.

(** A reference to a function gives the function it refers to, and gives one exactly if it refers to one. *)
Theorem reference_gives_its_function : forall (Obj : Type) (import_module : string -> result Obj) (getattr : Obj -> string -> result Obj) (callable : Obj -> bool) (ref : string) (o : Obj),
  resolve_callback_reference import_module getattr callable ref = Ok o <-> refers import_module getattr callable ref o.
Proof. intros. apply resolve_iff. Qed.
Print Assumptions reference_gives_its_function.
(** A text names at most one module and one chain of attributes. *)
Theorem reference_is_unambiguous : forall ref m l m' l', names ref m l -> names ref m' l' -> m = m' /\ l = l'.
Proof. exact names_unique. Qed.
Print Assumptions reference_is_unambiguous.
(** A function of a module can be written with a colon or with a dot. *)
Theorem colon_and_dot_agree : forall (Obj : Type) (import_module : string -> result Obj) (getattr : Obj -> string -> result Obj) (callable : Obj -> bool) (m f : string),
  without ":" m -> without ":" f -> without "." f -> m <> "" ->
  resolve_callback_reference import_module getattr callable (m ++ ":" ++ f) = resolve_callback_reference import_module getattr callable (m ++ "." ++ f).
Proof. intros Obj im ga ca m f. exact (resolve_same im ga ca m f). Qed.
Print Assumptions colon_and_dot_agree.
(** References of site-energy models mean the same, and are refused if the module or the attribute is empty. *)
Theorem site_model_references : forall (Obj : Type) (import_module : string -> result Obj) (getattr : Obj -> string -> result Obj) (callable : Obj -> bool) (ref : string) (o : Obj),
  resolve_callable_reference import_module getattr callable ref = Ok o
  <-> refers import_module getattr callable ref o /\ forall m attrs, names ref m attrs -> m <> "" /\ attrs <> [""].
Proof. intros. apply resolve_site_iff. Qed.
Print Assumptions site_model_references.

(** A package "pkg" (1) with module "pkg.mod" (2), a class "Tools" (3) in it, a function "energy" (4) in the module
    and a function "energy" (5) in the class. *)
Definition im (m : string) : result nat := if String.eqb m "pkg" then Ok 1%nat else if String.eqb m "pkg.mod" then Ok 2%nat else Err RuntimeError.
Definition ga (o : nat) (a : string) : result nat :=
  match o with
  | 1%nat => if String.eqb a "mod" then Ok 2%nat else Err AttributeError
  | 2%nat => if String.eqb a "Tools" then Ok 3%nat else if String.eqb a "energy" then Ok 4%nat else Err AttributeError
  | 3%nat => if String.eqb a "energy" then Ok 5%nat else Err AttributeError
  | _ => Err AttributeError
  end.
Definition ca (o : nat) : bool := Nat.leb 3 o.
Definition fn (o : nat) : option string := if Nat.eqb o 3 then Some "Tools" else if Nat.leb 4 o then Some "energy" else None.
Example reference_example :
  resolve_callback_reference im ga ca "pkg.mod:Tools.energy" = Ok 5%nat /\ resolve_callback_reference im ga ca "pkg.mod:energy" = Ok 4%nat
  /\ resolve_callback_reference im ga ca "pkg.mod.energy" = Ok 4%nat /\ resolve_callable_reference im ga ca "pkg:mod.energy" = Ok 4%nat
  /\ resolve_callback_reference im ga ca "pkg.mod" = Err TypeError /\ resolve_callback_reference im ga ca "energy" = Err ValueError.
Proof. repeat split. Qed.
(** False: a function reached through "module:a.b" can also be written "module.a.b". *)
Theorem nested_functions_by_dots_refuted : exists (import_module : string -> result nat) (getattr : nat -> string -> result nat) (callable : nat -> bool) m a b o,
  resolve_callback_reference import_module getattr callable (m ++ ":" ++ a ++ "." ++ b) = Ok o
  /\ resolve_callback_reference import_module getattr callable (m ++ "." ++ a ++ "." ++ b) <> Ok o.
Proof. exists im, ga, ca, "pkg.mod", "Tools", "energy", 5%nat. done. Qed.
Print Assumptions nested_functions_by_dots_refuted.

(** A new run samples exactly the properties that its configuration asks for: it can be made if and only if
    the configuration asks for something consistent, and then this is its plan. *)
Theorem run_samples_what_is_configured : forall (Obj : Type) (import_module : string -> result Obj) (getattr : Obj -> string -> result Obj) (callable : Obj -> bool)
  (identity : Obj -> nat) (fname : nat -> option string) (d : fields) (p : plan Q), runtime_post_init d = Ok tt ->
  configure_properties import_module getattr callable identity fname d empty_plan = Ok p <-> configured import_module getattr callable identity fname d p.
Proof. intros Obj im ga ca idn fname d p. exact (configure_iff im ga ca idn fname d p). Qed.
Print Assumptions run_samples_what_is_configured.

Definition ex_callback (ref : string) (name : json) : json :=
  JObj [("callable", JStr ref); ("interval", JInt 10); ("name", name); ("store", JBool false); ("max_records", JInt 3)].
Definition ex_fields (cs : list json) : fields :=
  [("temperature", V (JFloat (300 # 1))); ("attempt_frequency", V (JInt 5)); ("equilibration_passes", V (JInt 0)); ("kmc_passes", V (JInt 100));
   ("property_sampling_interval", V (JInt 5)); ("property_sampling_time_interval", V JNull);
   ("builtin_property_enabled", V (JObj [("msd", JBool false)])); ("property_callbacks", V (JList cs))].
Example run_samples_example :
  let d := ex_fields [ex_callback "pkg.mod:energy" JNull; ex_callback "pkg.mod:Tools.energy" (JStr "tools")] in
  runtime_post_init d = Ok tt
  /\ exists p, configure_properties im ga ca (fun o => o) fn d empty_plan = Ok p /\ p_interval p = Some 5%Z /\ dget (p_builtin p) "msd" = Some false /\ dget (p_builtin p) "conductivity" = Some true
     /\ map fst (p_attached p) = ["energy"; "tools"] /\ map (fun x => s_callback (snd x)) (p_attached p) = [4%nat; 5%nat]
     /\ map (fun x => (s_interval (snd x), s_store (snd x), s_max (snd x))) (p_attached p) = [(Some 10%Z, false, Some 3%Z); (Some 10%Z, false, Some 3%Z)].
Proof. cbn zeta. split; [by vm_compute|]. eexists. split; [vm_compute; reflexivity|]. by repeat split. Qed.
(** False: a configuration that passes validation, whose references all lead to functions, can be run. *)
Theorem validated_callbacks_can_be_used_refuted : exists (import_module : string -> result nat) (getattr : nat -> string -> result nat) (callable : nat -> bool)
  (identity : nat -> nat) (fname : nat -> option string) d cs, runtime_post_init d = Ok tt /\ dget d "property_callbacks" = Some (V (JList cs))
  /\ (forall j, j ∈ cs -> exists l ref o, j = JObj l /\ given l "callable" = JStr ref /\ resolve_callback_reference import_module getattr callable ref = Ok o)
  /\ configure_properties import_module getattr callable identity fname d empty_plan = Err ValueError.
Proof.
  exists im, ga, ca, (fun o => o), fn, (ex_fields [ex_callback "pkg.mod:energy" JNull; ex_callback "pkg.mod:Tools.energy" JNull]).
  eexists. split; [by vm_compute|]. split; [reflexivity|]. split; [|by vm_compute].
  intros j Hj. apply elem_of_cons in Hj as [->|Hj]; [|apply elem_of_list_singleton in Hj as ->]; unfold ex_callback.
  - do 2 eexists. exists 4%nat. done.
  - do 2 eexists. exists 5%nat. done.
Qed.
Print Assumptions validated_callbacks_can_be_used_refuted.

(** The function that computes energies receives the keywords it takes and no others: the user's values
    first, the standard ones for the rest. *)
Theorem energy_function_gets_its_keywords : forall (A : Type) (sig : list param) (std user args : dict string A), call_compute sig std user = Ok args ->
  forall k v, dget args k = Some v <-> takes sig k /\ match dget (rev user) k with Some w => v = w | None => dget std k = Some v end.
Proof. intros A. exact compute_ok. Qed.
Print Assumptions energy_function_gets_its_keywords.
(** It is called exactly if it takes every keyword of the user and is given every parameter that it requires. *)
Theorem energy_function_is_called : forall (A : Type) (sig : list param) (std user : dict string A), (exists args, call_compute sig std user = Ok args)
  <-> callable_by_keyword sig /\ (forall k, k ∈ dkeys user -> takes sig k) /\ (forall n, required sig n -> n ∈ dkeys std \/ n ∈ dkeys user).
Proof. intros A. exact compute_iff. Qed.
Print Assumptions energy_function_is_called.
(** The function that applies an event receives everything: it must take every standard keyword, and none may be given twice. *)
Theorem apply_function_gets_everything : forall (A : Type) (sig : list param) (std user args : dict string A), call_apply sig std user = Ok args
  <-> args = (std ++ user)%list /\ callable_by_keyword sig /\ (forall k, k ∈ dkeys user -> k ∉ dkeys std) /\ (forall k, k ∈ dkeys std \/ k ∈ dkeys user -> takes sig k)
      /\ (forall n, required sig n -> n ∈ dkeys std \/ n ∈ dkeys user).
Proof. intros A. exact apply_iff. Qed.
Print Assumptions apply_function_gets_everything.
(** A function that can apply events with some keywords can compute energies with them. *)
Theorem apply_implies_compute : forall (A : Type) (sig : list param) (std user args : dict string A), call_apply sig std user = Ok args -> exists args', call_compute sig std user = Ok args'.
Proof. intros A sig std user args H. apply apply_iff in H as (_ & H1 & _ & H2 & H3). apply compute_iff. split; [exact H1|]. split; [|exact H3]. intros k Hk. apply H2. by right. Qed.
Print Assumptions apply_implies_compute.

Definition ex_sig : list param := [Param "event" PositionalOrKeyword false; Param "scale" KeywordOnly true].
Definition ex_std : dict string nat := [("event", 7%nat); ("state", 8%nat)].
Example keywords_example : call_compute ex_sig ex_std [("scale", 2%nat)] = Ok [("event", 7%nat); ("scale", 2%nat)]
  /\ call_compute ex_sig ex_std [("other", 2%nat)] = Err TypeError
  /\ call_apply (Param "rest" VarKeyword true :: ex_sig) ex_std [("scale", 2%nat)] = Ok [("event", 7%nat); ("state", 8%nat); ("scale", 2%nat)].
Proof. by vm_compute. Qed.
(** False: a function that can compute energies can also apply events. *)
Theorem compute_implies_apply_refuted : exists (sig : list param) (std user : dict string nat) args, call_compute sig std user = Ok args /\ call_apply sig std user = Err TypeError.
Proof. exists ex_sig, ex_std, [], [("event", 7%nat)]. by vm_compute. Qed.
Print Assumptions compute_implies_apply_refuted.
(** False: the energy function sees the event of the step (a keyword of the user with the same name replaces it silently). *)
Theorem energy_function_sees_the_event_refuted : exists (sig : list param) (std user args : dict string nat) e,
  dget std "event" = Some e /\ call_compute sig std user = Ok args /\ takes sig "event" /\ dget args "event" <> Some e.
Proof.
  exists ex_sig, ex_std, [("event", 0%nat)], [("event", 0%nat)], 7%nat. split; [done|]. split; [by vm_compute|]. split; [|done].
  exists (Param "event" PositionalOrKeyword false). split; [by left|]. right. split; [done|by left].
Qed.
Print Assumptions energy_function_sees_the_event_refuted.
