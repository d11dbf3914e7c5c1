(** The floating-point operations the code uses, as a record that the model is
    parametric in. [F] is the type of [float] values. Theorems that quantify
    over [fops] hold for IEEE arithmetic, for exact arithmetic and for any
    other interpretation. *)
From Coq Require Import ZArith List.
Import ListNotations.

Record fops (F : Type) : Type := mk_fops {
  f_zero : F;                       (* 0.0f *)
  f_int : Z -> F;                   (* conversion of an int to float *)
  f_add : F -> F -> F;
  f_sub : F -> F -> F;
  f_mul : F -> F -> F;
  f_div : F -> F -> F;
  f_lt : F -> F -> bool;            (* x < y, false for NaN *)
  f_nonneg : F -> bool;             (* x >= 0.0, false for NaN *)
  f_eps : F;                        (* FLT_EPSILON *)
  f_expf : F -> F;                  (* expf *)
  f_exp : F -> F;                   (* exp, rounded to float *)
  f_log : F -> F;                   (* log, rounded to float *)
  f_preemph : F -> F -> F;          (* x - 0.97 * y in double, rounded to float (src/fbank.cc:59) *)
  f_norm : F -> F -> F;             (* sqrt(d / s) in double, rounded to float (src/nnet.cc:172) *)
  f_minus_one : F;                  (* -1.0f *)
  f_finite : F -> bool;             (* isfinite *)
  f_inf : F;                        (* INFINITY *)
  f_dot : list F -> list F -> F     (* one element of a product computed by cblas_sgemm: row times
                                       column, in the library's own order of operations, assumed to
                                       depend on these two only (src/matrix.cc:308-322) *)
}.
Arguments f_zero {F}. Arguments f_int {F}. Arguments f_add {F}. Arguments f_sub {F}.
Arguments f_mul {F}. Arguments f_div {F}. Arguments f_lt {F}. Arguments f_nonneg {F}.
Arguments f_eps {F}. Arguments f_expf {F}. Arguments f_exp {F}. Arguments f_log {F}.
Arguments f_preemph {F}. Arguments f_norm {F}. Arguments f_minus_one {F}. Arguments f_dot {F}. Arguments f_finite {F}. Arguments f_inf {F}.
