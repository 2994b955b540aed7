(** C49: transport properties.  The values are those of [compute_transport_properties] in
    exact arithmetic; [None] is NaN. *)
From Coq Require Import QArith Lqa.
From Verif Require Import Py TrackerModel TransportModel TransportSpec TransportProofs.
Local Open Scope Q_scope.

(** C49: the mean squared displacement is NaN exactly when nothing is tracked; the two
    diffusivities and the conductivity are NaN exactly when moreover no time has passed.
    (A positive dimension, volume and temperature are what the configuration accepts.) *)
Theorem transport_defined_iff : forall pr disp t,
  (0 < dimension pr)%Z -> 0 < volume pr -> 0 < temperature pr ->
  (msd_value disp <> None <-> disp <> []) /\
  (jump_value pr disp t <> None <-> 0 < t /\ disp <> []) /\
  (tracer_value pr disp t <> None <-> 0 < t /\ disp <> []) /\
  (conductivity_value pr disp t <> None <-> 0 < t /\ disp <> []) /\
  (havens_value pr disp t <> None <->
     0 < t /\ disp <> [] /\ ~ len2 (vector_sum disp) == 0).
Proof. exact transport_defined_lemma. Qed.
Print Assumptions transport_defined_iff.

(** C49: the Einstein relations.  With [n] tracked ions, after a time [t > 0]:
    [MSD * n = sum |d|^2], [D_tracer * 2 dim t = MSD * 1e-16] and
    [D_jump * 2 dim t n = |sum d|^2 * 1e-16]; all are nonnegative. *)
Theorem einstein_relations : forall pr disp t,
  (0 < dimension pr)%Z -> 0 < t -> disp <> [] ->
  exists m dt dj,
    msd_value disp = Some m /\ tracer_value pr disp t = Some dt /\
    jump_value pr disp t = Some dj /\
    m * qlen disp == qsum (map len2 disp) /\
    dt * (2 * inject_Z (dimension pr) * t) == m * (1 # 10000000000000000) /\
    dj * (2 * inject_Z (dimension pr) * t * qlen disp) ==
      len2 (vector_sum disp) * (1 # 10000000000000000) /\
    0 <= m /\ 0 <= dt /\ 0 <= dj.
Proof. exact einstein_lemma. Qed.
Print Assumptions einstein_relations.

(** C49: the Haven ratio is the tracer over the jump diffusivity, hence
    [sum |d|^2 / |sum d|^2], and is at least [1/n]; it is NaN exactly when the ions'
    displacements cancel. *)
Theorem havens_ratio_exact : forall pr disp t,
  (0 < dimension pr)%Z -> 0 < t -> disp <> [] ->
  match havens_value pr disp t with
  | Some h =>
      ~ len2 (vector_sum disp) == 0 /\
      h * len2 (vector_sum disp) == qsum (map len2 disp) /\ 1 <= h * qlen disp
  | None => len2 (vector_sum disp) == 0
  end.
Proof. exact havens_lemma. Qed.
Print Assumptions havens_ratio_exact.

(** C49: a single tracked ion has Haven ratio one as soon as it is displaced. *)
Theorem single_ion_haven_one : forall pr d t,
  (0 < dimension pr)%Z -> 0 < t -> ~ len2 d == 0 ->
  exists h, havens_value pr [d] t = Some h /\ h == 1.
Proof. exact single_ion_lemma. Qed.
Print Assumptions single_ion_haven_one.

(** C49: Nernst-Einstein: [sigma kB T V = D_jump n q^2 * 1.602e11], and it is
    nonnegative. *)
Theorem nernst_einstein : forall pr disp t,
  (0 < dimension pr)%Z -> 0 < t -> disp <> [] -> 0 < volume pr -> 0 < temperature pr ->
  exists j s, jump_value pr disp t = Some j /\ conductivity_value pr disp t = Some s /\
    s * (boltzmann_constant_mev * temperature pr * volume pr) ==
    j * qlen disp * (charge pr * charge pr) * to_millisiemens /\ 0 <= s.
Proof. exact conductivity_lemma. Qed.
Print Assumptions nernst_einstein.

(** C49: the same displacements in [k] times the time give [1/k] of the diffusivities. *)
Theorem diffusivity_time_scaling : forall pr disp t k,
  (0 < dimension pr)%Z -> 0 < k -> 0 < t -> disp <> [] ->
  odiv_by k (jump_value pr disp t) (jump_value pr disp (k * t)) /\
  odiv_by k (tracer_value pr disp t) (tracer_value pr disp (k * t)).
Proof. exact time_scaling_lemma. Qed.
Print Assumptions diffusivity_time_scaling.

(** C49: no value depends on the order in which the ions are tracked. *)
Theorem transport_relabelling : forall pr t (rows rows' : list (vec * nat)),
  rows ≡ₚ rows' -> forall name,
  oeq (transport_value pr (map fst rows) (map snd rows) t name)
      (transport_value pr (map fst rows') (map snd rows') t name).
Proof. exact relabel_lemma. Qed.
Print Assumptions transport_relabelling.

(** C49: when every ion's displacement is the sum of as many hops as its counter says,
    each of the configured length, the correlation factor is between zero and the largest
    count, and is one if every ion hopped once. *)
Theorem correlation_factor_range : forall pr disp hops m,
  ~ hop_distance pr == 0 -> hops <> [] ->
  Forall2 (made_of_hops (hop_distance pr)) disp hops ->
  Forall (fun h => (h <= m)%nat) hops ->
  exists c, correlation_value pr disp hops = Some c /\ 0 <= c <= inject_Z (Z.of_nat m).
Proof. exact correlation_range_lemma. Qed.
Print Assumptions correlation_factor_range.

Theorem correlation_factor_single_hops : forall pr disp hops,
  ~ hop_distance pr == 0 -> hops <> [] ->
  Forall2 (made_of_hops (hop_distance pr)) disp hops ->
  Forall (fun h => h = 1%nat) hops ->
  exists c, correlation_value pr disp hops = Some c /\ c == 1.
Proof. exact correlation_single_lemma. Qed.
Print Assumptions correlation_factor_single_hops.

(** Two ions: one moved by (1,0,0) in one hop, the other by (0,1,0) in one; dimension 3. *)
Definition example_params : transport_params := TransportParams 3 1 10 1 300.
Definition example_disp : list vec := [Vec 1 0 0; Vec 0 1 0].
Example transport_example :
  (0 < dimension example_params)%Z /\ 0 < volume example_params /\
  0 < temperature example_params /\
  ~ len2 (vector_sum example_disp) == 0 /\
  Forall2 (made_of_hops (hop_distance example_params)) example_disp [1; 1]%nat /\
  oeq (havens_value example_params example_disp 2) (Some 1) /\
  oeq (msd_value example_disp) (Some 1) /\
  oeq (correlation_value example_params example_disp [1; 1]%nat) (Some 1) /\
  oeq (jump_value example_params example_disp 2)
      (Some ((1 # 12) * (1 # 10000000000000000))) /\
  havens_value example_params [Vec 1 0 0; Vec (-1) 0 0] 2 = None.
Proof.
  split; [reflexivity|]. split; [reflexivity|]. split; [reflexivity|].
  split; [by intros H; vm_compute in H|].
  split.
  { constructor; [|constructor; [|constructor]].
    - exists [Vec 1 0 0]. repeat split; try reflexivity. by repeat constructor.
    - exists [Vec 0 1 0]. repeat split; try reflexivity. by repeat constructor. }
  repeat split; reflexivity.
Qed.
