(** Log mel energies of a frame, as formulas on real numbers. *)
From Coq Require Import Reals List.
From Verif.Spec Require Import FftSpec.
Import ListNotations.
Open Scope R_scope.

(** The mel scale of a frequency in Hz. *)
Definition mel (f : R) : R := 1127 * ln (1 + f / 700).

(** Edges of the filters: 42 points at equal distances on the mel scale, from 20 Hz to 8000 Hz. *)
Definition edge (j : nat) : R := mel 20 + INR j * ((mel 8000 - mel 20) / 41).

(** A triangle over [l .. r] with the top, which is 1, at [c]. *)
Definition triangle (l c r x : R) : R := Rmax 0 (Rmin ((x - l) / (c - l)) ((r - x) / (r - c))).

(** The weight of the term [k] of the transform, at [16000 * k / 512] Hz, in the filter [j]. *)
Definition mel_weight (j k : nat) : R :=
  triangle (edge j) (edge (j + 1)) (edge (j + 2)) (mel (16000 * INR k / 512)).

(** A frame without its mean. *)
Definition centred (w : list R) (i : nat) : R := nth i w 0 - sum_of w / INR (length w).

(** Pre-emphasis and the Hamming window. The first sample is its own predecessor. *)
Definition weighted (w : list R) (i : nat) : R :=
  (centred w i - 97 / 100 * centred w (i - 1)) *
  (54 / 100 - 46 / 100 * cos (2 * PI * INR i / INR (length w - 1))).

(** The frame padded to 512 elements. *)
Definition padded_frame (w : list R) : list R :=
  map (weighted w) (seq 0 (length w)) ++ repeat 0 (512 - length w).

Definition power (x : list R) (k : nat) : R := dft_re x k * dft_re x k + dft_im x k * dft_im x k.

Definition mel_energy (w : list R) (j : nat) : R :=
  sum_of (map (fun k => mel_weight j k * power (padded_frame w) k) (seq 0 256)).

(** The feature [j] of a frame, with a floor of [2^-23] under the energy. *)
Definition log_mel (w : list R) (j : nat) : R := ln (Rmax (/ 2 ^ 23) (mel_energy w j)).
