(** The real numbers that floating-point numbers stand for, and what is asked of
    the functions of libm in terms of them. *)
From Coq Require Import ZArith Reals Floats.SpecFloat.
From Verif.Model Require Import Ieee IeeeFbank.
Open Scope R_scope.

Definition value (x : spec_float) : R :=
  match x with
  | S754_finite s m e => (if s then -1 else 1) * IZR (Zpos m) * powerRZ 2 e
  | _ => 0
  end.

(** [x] is a finite number within [e] of [r]. *)
Definition close {prec emax} (x : fl prec emax) (r e : R) : Prop :=
  is_finite (fl_val x) = true /\ Rabs (value (fl_val x) - r) <= e.

(** logf is within a thousandth of the logarithm between 1/2 and 16. *)
Definition close_logf (M : trig_library) : Prop :=
  forall x, is_finite (fl_val x) = true -> / 2 <= value (fl_val x) <= 16 ->
    close (lib_logf M x) (ln (value (fl_val x))) (/ 1000).
