(** IEEE binary64 instance of the rate cache and of [_propose]
    (kmcpy/simulator/kmc.py:456 and 555-564): every addition, division,
    multiplication and comparison rounds to nearest even, as numpy's float64 does. *)
From Coq Require Import ZArith.
From Flocq Require Import Core BinarySingleNaN.
From Verif Require Import Py KmcModel ProposeModel.
Local Open Scope nat_scope.

Notation f64 := (binary_float 53 1024).

Global Instance prec53 : Prec_gt_0 53 := eq_refl.
Global Instance prec53_emax : Prec_lt_emax 53 1024 := eq_refl.

Definition fplus : f64 -> f64 -> f64 := Bplus mode_NE.
Definition fdiv : f64 -> f64 -> f64 := Bdiv mode_NE.
Definition fmult : f64 -> f64 -> f64 := Bmult mode_NE.
Definition fleb : f64 -> f64 -> bool := Bleb.
Definition fzero : f64 := B754_zero false.
Definition fminus_one : f64 := Bopp Bone.

(** Comparison of the denominator with 0.0. *)
Definition is_fzero (x : f64) : bool :=
  match x with B754_zero _ => true | _ => false end.

Section Float.
  (** The C library's [log]. *)
  Variable flog : f64 -> f64.

  (** kmc.py:563. *)
  Definition fwaiting (total u : f64) : f64 := fmult (fdiv fminus_one total) (flog u).

  (** kmc.py:556-564. *)
  Definition fselect : list f64 -> f64 -> f64 -> result (nat * f64) :=
    select_event fdiv fleb is_fzero fwaiting.
End Float.

(** np.cumsum on float64. *)
Definition fcumsum : list f64 -> list f64 := cumsum fplus.
