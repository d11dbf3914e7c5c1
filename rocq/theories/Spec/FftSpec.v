(** The discrete Fourier transform of a real signal. *)
From Coq Require Import Reals List.
Import ListNotations.
Open Scope R_scope.

Definition sum_of (l : list R) : R := fold_right Rplus 0 l.

(** [2 * pi * k * n / N] *)
Definition phase (N k n : nat) : R := 2 * PI * INR k * INR n / INR N.

(** The real and the imaginary part of [sum x_n * exp (- 2 * pi * i * k * n / N)]. *)
Definition dft_re (x : list R) (k : nat) : R :=
  sum_of (map (fun n => nth n x 0 * cos (phase (length x) k n)) (seq 0 (length x))).
Definition dft_im (x : list R) (k : nat) : R :=
  sum_of (map (fun n => nth n x 0 * - sin (phase (length x) k n)) (seq 0 (length x))).

(** The transform of a real signal is known from its first half. The terms [0] and
    [N / 2] are real; they come first. The real and the imaginary parts of the terms
    in between follow. *)
Definition packed_dft (x : list R) : list R :=
  [dft_re x 0; dft_re x (length x / 2)] ++
  flat_map (fun k => [dft_re x k; dft_im x k]) (seq 1 (length x / 2 - 1)).
