(** The numbers and operations of src/srfft.cc and of the constructors of
    src/fbank.cc in IEEE 754 arithmetic (Model/Ieee.v). The functions of libm are
    parameters. *)
From Coq Require Import ZArith Bool List Floats.SpecFloat.
From Verif.Model Require Import Arith Srfft FbankInit Ieee.
Open Scope Z_scope.

(** A decimal constant [n / 10^k], rounded once. *)
Definition decimal64 (n : positive) (k : Z) : spec_float :=
  let '(m, e, l) := SFdiv_core_binary 53 1024 (Zpos n) 0 (10 ^ k) 0 in
  binary_round_aux 53 1024 false m e l.

(** src/srfft.cc:37-39 and 41-43. *)
Definition srfft_2pi : spec_float := decimal64 6283185307179586476925286766559005 33.
Definition srfft_sqrt1_2 : spec_float := decimal64 70710678118654752440 20.
(** src/fbank.cc:18-20. *)
Definition fbank_2pi : spec_float := decimal64 628318530718 11.

Definition double (z : Z) : spec_float := binary_normalize 53 1024 z 0 false.

(** Functions of libm. With the C++ header the calls [cos(x)] and [sin(x)] with
    [x] a [float] have the type [float]; with the C header they have the type
    [double]. For src/srfft.cc, which stores the result in a [float], both are a
    function to [float]; for src/fbank.cc:253 both are a function to [double]. *)
Record trig_library : Type := mk_trig_library {
  lib_cos : float32 -> float32;
  lib_sin : float32 -> float32;
  lib_cos_wide : float32 -> float64;
  lib_logf : float32 -> float32
}.

(** The operations of Model/Srfft.v: [n * M_2PI / m] (src/srfft.cc:113,116),
    [M_2PI / N * forward_sign] (385), [cos] and [sin] (48-49,114,117), M_SQRT1_2
    (132), 0.5 * x and -0.5 * x (396-401), [x /= 2] (447-448), [x *= 2.0] (454).
    [int] operands of a product with a [double] are converted to [double]. *)
Definition ieee_trig (M : trig_library) : trig_ops float32 := mk_trig
  (fun n m => narrow (f64 (SFdiv 53 1024 (SFmul 53 1024 (double n) srfft_2pi) (double m))))
  (fun n s => narrow (f64 (SFmul 53 1024 (SFdiv 53 1024 srfft_2pi (double n)) (double s))))
  (lib_cos M)
  (lib_sin M)
  (fun x => f32 (SFopp (fl_val x)))
  (narrow (f64 srfft_sqrt1_2))
  (fun x => narrow (f64 (SFmul 53 1024 (ratio64 1 2) (fl_val (widen x)))))
  (fun x => narrow (f64 (SFmul 53 1024 (ratio64 (-1) 2) (fl_val (widen x)))))
  (fun x => f32 (SFdiv 24 128 (fl_val x) (binary_normalize 24 128 2 0 false)))
  (fun x => narrow (f64 (SFmul 53 1024 (fl_val (widen x)) (double 2)))).

(** The operations of Model/FbankInit.v: logf (src/fbank.h:31), [<=]
    (src/fbank.cc:143), [M_2PI / (FRAME_LENGTH - 1)] (250) and
    [0.54 - 0.46 * cos(x)] (253). *)
Definition ieee_init (M : trig_library) : init_ops float32 := mk_init
  (lib_logf M)
  (fun x y => SFleb (fl_val x) (fl_val y))
  (fun n => narrow (f64 (SFdiv 53 1024 fbank_2pi (double n))))
  (fun x => narrow (f64 (SFsub 53 1024 (ratio64 54 100) (SFmul 53 1024 (ratio64 46 100) (fl_val (lib_cos_wide M x)))))).
