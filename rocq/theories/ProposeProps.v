(** Properties C08-C11: selecting an event and its waiting time. *)
From Coq Require Import Reals Lra ZArith.
From Flocq Require Import Core BinarySingleNaN.
From Verif Require Import Py KmcModel ProposeModel ProposeSpec ProposeProofs FloatModel
  FloatSpec FloatProofs.
Local Open Scope R_scope.

(* ---------------- C08 ---------------- *)
Theorem selection_returns_possible_event : forall p u1 u2,
  all_nonneg p -> 0 < total_rate p -> 0 <= u1 < 1 ->
  exists i x, Rselect (cumsum Rplus p) u1 u2 = Ok (i, Rwaiting (total_rate p) u2) /\
    p !! i = Some x /\ 0 < x /\
    rate_before p i <= u1 * total_rate p < rate_before p (S i).
Proof. exact Rselect_total. Qed.
Print Assumptions selection_returns_possible_event.

(** With all rates zero the call raises instead of returning an index. *)
Theorem selection_without_rates_raises : forall p u1 u2,
  p <> [] -> total_rate p = 0 -> Rselect (cumsum Rplus p) u1 u2 = Err ZeroDivisionError.
Proof. exact zero_total_lemma. Qed.
Print Assumptions selection_without_rates_raises.

(* ---------------- C09 ---------------- *)
Theorem selection_probability_interval : forall p u1 u2 i,
  all_nonneg p -> 0 < total_rate p -> 0 <= u1 < 1 ->
  ((exists dt, Rselect (cumsum Rplus p) u1 u2 = Ok (i, dt)) <->
   (i < length p)%nat /\
   rate_before p i / total_rate p <= u1 < rate_before p (S i) / total_rate p).
Proof. exact selection_interval_lemma. Qed.
Print Assumptions selection_probability_interval.

Theorem selection_probability_length : forall p i x,
  0 < total_rate p -> p !! i = Some x ->
  rate_before p (S i) / total_rate p - rate_before p i / total_rate p = x / total_rate p.
Proof. exact interval_length_lemma. Qed.
Print Assumptions selection_probability_length.

Example selection_example :
  all_nonneg [1; 0; 3] /\ 0 < total_rate [1; 0; 3] /\
  (exists dt, Rselect (cumsum Rplus [1; 0; 3]) (1/4) (1/2) = Ok (2%nat, dt)) /\
  (exists dt, Rselect (cumsum Rplus [1; 0; 3]) (1/5) (1/2) = Ok (0%nat, dt)).
Proof.
  assert (Hp : all_nonneg [1; 0; 3]) by (repeat constructor; lra).
  assert (Ht : 0 < total_rate [1; 0; 3]) by (simpl; lra).
  split; [done|]. split; [done|]. split.
  - apply selection_interval_lemma; [done|done|lra|]. split; [simpl; lia|].
    unfold rate_before. simpl. lra.
  - apply selection_interval_lemma; [done|done|lra|]. split; [simpl; lia|].
    unfold rate_before. simpl. lra.
Qed.

(* ---------------- C10 ---------------- *)
Theorem float_selection_returns_possible_event : forall flog p total u1 u2,
  Forall (fun x => finite x /\ 0 <= value x) p -> Forall finite (fcumsum p) ->
  last (fcumsum p) = Some total -> 0 < value total ->
  finite u1 -> 0 <= value u1 < 1 ->
  exists i x, fselect flog (fcumsum p) u1 u2 = Ok (i, fwaiting flog total u2) /\
    p !! i = Some x /\ 0 < value x.
Proof. exact fselect_lemma. Qed.
Print Assumptions float_selection_returns_possible_event.

Theorem float_waiting_time_nonneg : forall flog total u,
  log_ok flog -> finite total -> 0 < value total -> finite u -> 0 <= value u < 1 ->
  nonneg_or_inf (fwaiting flog total u) /\
  (value u = 0 -> fwaiting flog total u = B754_infinity false).
Proof. exact fwaiting_lemma. Qed.
Print Assumptions float_waiting_time_nonneg.

Theorem float_clock_never_goes_back : forall t dt,
  nonneg_or_inf t -> nonneg_or_inf dt ->
  nonneg_or_inf (fplus t dt) /\ fleb t (fplus t dt) = true.
Proof. exact fclock_lemma. Qed.
Print Assumptions float_clock_never_goes_back.

Definition f64_of (m e : Z) : f64 := binary_normalize 53 1024 eq_refl eq_refl mode_NE m e false.
(** A stand-in logarithm that meets [log_ok]: -1 on (0,1). *)
Definition ex_log (u : f64) : f64 :=
  match u with B754_zero _ => B754_infinity true | _ => Bopp Bone end.

(** Rates 0.1, 0, 0.2, draw 0.5; and the rates meet every hypothesis. *)
Example float_selection_example :
  let p := [f64_of 3602879701896397 (-55); fzero; f64_of 3602879701896397 (-54)] in
  map B2SF (fcumsum p) = map B2SF [f64_of 3602879701896397 (-55);
    f64_of 3602879701896397 (-55); f64_of 5404319552844596 (-54)] /\
  forallb (fun x => is_finite x && fleb fzero x) p = true /\
  forallb is_finite (fcumsum p) = true /\
  rmap (fun r => (fst r, B2SF (snd r)))
    (fselect ex_log (fcumsum p) (f64_of 1 (-1)) (f64_of 1 (-1))) =
  Ok (2%nat, B2SF (f64_of 7505999378950826 (-51))).
Proof. repeat split; vm_compute; reflexivity. Qed.

Example ex_log_ok : log_ok ex_log.
Proof.
  split; [done|]. intros u Hu Hv. destruct u as [s|s| |s m e H]; try discriminate.
  - unfold value in Hv. simpl in Hv. lra.
  - pose proof minus_one_value as [H1 H2]. change (ex_log _) with fminus_one.
    split; [done|]. rewrite H1. lra.
Qed.

(* ---------------- C11 ---------------- *)
Theorem waiting_time_exponential : forall total u t,
  0 < total -> 0 < u < 1 ->
  0 < Rwaiting total u /\ (0 <= t -> (t < Rwaiting total u <-> u < exp (- (total * t)))).
Proof. exact waiting_lemma. Qed.
Print Assumptions waiting_time_exponential.

(** A draw of exactly 0, which the generator can return, puts an infinite waiting time
    on the clock, from which it never recovers. *)
Theorem waiting_time_always_finite_refuted :
  exists u, finite u /\ 0 <= value u < 1 /\
  forall flog total t, log_ok flog -> finite total -> 0 < value total -> nonneg_or_inf t ->
    forall dt, nonneg_or_inf dt ->
    fplus (fplus t (fwaiting flog total u)) dt = B754_infinity false.
Proof.
  exists fzero. split; [done|]. split; [unfold value; simpl; lra|].
  intros flog total t Hl Hf Ht Htt dt Hdt.
  destruct (fwaiting_lemma flog total fzero Hl Hf Ht) as [_ Hw]; [done|unfold value; simpl; lra|].
  rewrite Hw by done.
  assert (H : fplus t (B754_infinity false) = B754_infinity false).
  { destruct Htt as [[Ht' _]| -> ]; [|done]. destruct t; try discriminate; done. }
  rewrite H. destruct Hdt as [[Hd _]| -> ]; [|done]. destruct dt; try discriminate; done.
Qed.
Print Assumptions waiting_time_always_finite_refuted.
