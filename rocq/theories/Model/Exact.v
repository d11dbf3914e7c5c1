(** Exact arithmetic on the real numbers in place of [float] and [double], for
    the properties that speak of formulas rather than of roundings. There are no
    infinities and no NaN; a quotient by zero has some value that no theorem
    may use. *)
From Coq Require Import ZArith Reals List.
From Verif.Model Require Import Arith Cmvn Quantize Srfft FbankInit.
Import ListNotations.
Open Scope R_scope.

Definition real_lt (x y : R) : bool := if Rlt_dec x y then true else false.
Definition real_le (x y : R) : bool := if Rle_dec x y then true else false.

Definition rops : fops R := mk_fops R
  0 IZR Rplus Rminus Rmult Rdiv real_lt (real_le 0)
  (/ IZR (2 ^ 23)) exp exp ln
  (fun x y => x - 97 / 100 * y) (fun d s => sqrt (d / s)) (-1)
  (fun _ => true) 0
  (fun a b => fold_left Rplus (map (fun '(x, y) => x * y) (combine a b)) 0).

(** [double] is the same. *)
Definition rwide : wide_ops R R := mk_wide
  (fun x => x) (fun x => x) IZR Rplus Rminus Rmult Rdiv real_le real_lt Ropp.

(** Rounding to the nearest whole number, halves away from zero. *)
Definition nearest (x : R) : option Z :=
  Some (if real_le 0 x then Int_part (x + / 2) else (- Int_part (- x + / 2))%Z).

(** The limits of [float] and rounding. *)
Definition rround : round_ops R R := mk_round
  ((2 - / IZR (2 ^ 23)) * IZR (2 ^ 127)) (/ IZR (2 ^ 126)) nearest nearest.

(** Angles and their functions. *)
Definition rtrig : trig_ops R := mk_trig
  (fun n m => IZR n * (2 * PI) / IZR m) (fun n sign => 2 * PI / IZR n * IZR sign) cos sin Ropp (/ sqrt 2)
  (fun x => / 2 * x) (fun x => - / 2 * x) (fun x => x / 2) (fun x => x * 2).

(** The functions of the mel filters and the window. *)
Definition rinit : init_ops R := mk_init ln real_le (fun n => 2 * PI / IZR n) (fun x => 54 / 100 - 46 / 100 * cos x).
