(** [float] and [double] as the formats binary32 and binary64 of IEEE 754 with
    rounding to nearest, ties to even, as specified in Coq's standard library
    (Coq.Floats.SpecFloat); no code is modelled here. Operations are rounded
    once each: no contraction into fused operations and no wider intermediate
    results. NaNs have no payload. The functions of the C library and the product
    of cblas_sgemm are parameters. *)
From Coq Require Import ZArith Bool List Floats.SpecFloat.
From Verif.Model Require Import Arith Decoder.
Open Scope Z_scope.

(** The numbers of a format with [prec] bits of precision and exponents below
    [emax]. *)
Record fl (prec emax : Z) : Set := mk_fl {
  fl_val : spec_float;
  fl_valid : valid_binary prec emax fl_val = true
}.
Arguments mk_fl {prec emax}. Arguments fl_val {prec emax}. Arguments fl_valid {prec emax}.

(** A result as a number of a format. The operations of SpecFloat give nothing
    else (Proof/Ieee.v), so that the second case does not occur. *)
Definition seal (prec emax : Z) (x : spec_float) : fl prec emax :=
  match bool_dec (valid_binary prec emax x) true with
  | left H => mk_fl x H
  | right _ => mk_fl S754_nan eq_refl
  end.

(** Rounding a number of another format. *)
Definition round_to (prec emax : Z) (x : spec_float) : spec_float :=
  match x with
  | S754_finite s m e => binary_round prec emax s m e
  | _ => x
  end.

Definition is_finite (x : spec_float) : bool :=
  match x with
  | S754_zero _ | S754_finite _ _ _ => true
  | _ => false
  end.

Notation float32 := (fl 24 128).
Notation float64 := (fl 53 1024).

Definition f32 : spec_float -> float32 := seal 24 128.
Definition f64 : spec_float -> float64 := seal 53 1024.
Definition widen (x : float32) : float64 := f64 (round_to 53 1024 (fl_val x)).
Definition narrow (x : float64) : float32 := f32 (round_to 24 128 (fl_val x)).

(** The nearest number to [n / d] for whole numbers that are exact in binary64. *)
Definition ratio64 (n d : Z) : spec_float :=
  SFdiv 53 1024 (binary_normalize 53 1024 n 0 false) (binary_normalize 53 1024 d 0 false).

(** Functions of libm and of the BLAS library. *)
Record library : Type := mk_library {
  lib_expf : float32 -> float32;
  lib_exp : float64 -> float64;
  lib_log : float64 -> float64;
  lib_dot : list float32 -> list float32 -> float32
}.

(** The operations on [float] of Model/Arith.v; among them x - 0.97 * y
    (src/fbank.cc:59) and sqrt(d / s) (src/nnet.cc:172), which the code computes
    in [double] and rounds. *)
Definition ieee (L : library) : fops float32 := mk_fops float32
  (f32 (S754_zero false))
  (fun z => f32 (binary_normalize 24 128 z 0 false))
  (fun x y => f32 (SFadd 24 128 (fl_val x) (fl_val y)))
  (fun x y => f32 (SFsub 24 128 (fl_val x) (fl_val y)))
  (fun x y => f32 (SFmul 24 128 (fl_val x) (fl_val y)))
  (fun x y => f32 (SFdiv 24 128 (fl_val x) (fl_val y)))
  (fun x y => SFltb (fl_val x) (fl_val y))
  (fun x => SFleb (S754_zero false) (fl_val x))
  (f32 (binary_round 24 128 false 1 (-23)))
  (lib_expf L)
  (fun x => narrow (lib_exp L (widen x)))
  (fun x => narrow (lib_log L (widen x)))
  (fun x y => narrow (f64 (SFsub 53 1024 (fl_val (widen x)) (SFmul 53 1024 (ratio64 97 100) (fl_val (widen y))))))
  (fun d s => narrow (f64 (SFsqrt 53 1024 (SFdiv 53 1024 (fl_val (widen d)) (fl_val (widen s))))))
  (f32 (binary_round 24 128 true 1 0))
  (fun x => is_finite (fl_val x))
  (f32 (S754_infinity false))
  (lib_dot L).

(** The operations on [double] of Model/Decoder.v (src/decoder.cc:181-236
    and 240-377). *)
Definition ieee_wide : xops float32 float64 := mk_xops
  widen narrow
  (fun x y => f64 (SFadd 53 1024 (fl_val x) (fl_val y)))
  (fun x y => f64 (SFsub 53 1024 (fl_val x) (fl_val y)))
  (fun x y => SFltb (fl_val x) (fl_val y))
  (fun x => is_finite (fl_val x))
  (fun x => match fl_val x with S754_infinity false => true | _ => false end)
  (f64 (S754_infinity false))
  (f64 S754_nan)
  (fun x => f32 (SFopp (fl_val x)))
  (f32 (binary_round 24 128 false 1 (-1))).
