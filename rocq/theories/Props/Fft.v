(** The Fourier transform (C56, C57). *)
From Coq Require Import ZArith Reals List.
From Verif.Base Require Import Prelude.
From Verif.Model Require Import Arith Srfft Exact.
From Verif.Spec Require Import FftSpec.
From Verif.Proof Require FftCases.
Import ListNotations.
Open Scope Z_scope.

(** * C56 *)

Theorem fft_computes_dft : forall junk junk_int e, (2 <= e <= 30)%nat ->
  exists f, srfft_new rops rtrig junk junk_int (2 ^ Z.of_nat e) = Ok f /\
  forall signal buffer, length signal = (2 ^ e)%nat -> (length signal <= 2 * length buffer)%nat ->
    exists buffer',
      compute rops rtrig f signal (lenZ signal) true buffer (lenZ buffer) = Ok (packed_dft signal, buffer').
Proof. exact Proof.FftCases.fft_forward. Qed.
Print Assumptions fft_computes_dft.

Example fft_computes_dft_case : packed_dft [1; 2; 3; 4]%R = [10; -2; -2; 2]%R.
Proof. exact Proof.FftCases.packed_case. Qed.
Print Assumptions fft_computes_dft_case.

Theorem fft_inverse : forall junk junk_int e, (2 <= e <= 30)%nat ->
  exists f, srfft_new rops rtrig junk junk_int (2 ^ Z.of_nat e) = Ok f /\
  forall signal buffer, length signal = (2 ^ e)%nat -> (length signal <= 2 * length buffer)%nat ->
    exists spectrum b1 b2,
      compute rops rtrig f signal (lenZ signal) true buffer (lenZ buffer) = Ok (spectrum, b1) /\
      compute rops rtrig f spectrum (lenZ signal) false b1 (lenZ buffer) =
        Ok (map (Rmult (INR (length signal))) signal, b2).
Proof. exact Proof.FftCases.fft_back. Qed.
Print Assumptions fft_inverse.

(** * C57 *)

Theorem fft_stays_in_its_buffers_partial : forall F (O : fops F) (T : trig_ops F) junk junk_int n, n <= int_max ->
  srfft_new O T junk junk_int n = Fault Assert \/
  exists f, srfft_new O T junk junk_int n = Ok f /\
    forall data (forward : bool) buffer, forward = true \/ n <= lenZ data ->
      compute O T f data (lenZ data) forward buffer (lenZ buffer) = Fault Assert \/
      exists data' buffer', compute O T f data (lenZ data) forward buffer (lenZ buffer) = Ok (data', buffer') /\
        length data' = length data /\ length buffer' = length buffer.
Proof. exact Proof.FftCases.fft_bounds. Qed.
Print Assumptions fft_stays_in_its_buffers_partial.

Theorem fft_accepts_fitting_sizes : forall F (O : fops F) (T : trig_ops F) junk junk_int e, (2 <= e <= 30)%nat ->
  exists f, srfft_new O T junk junk_int (2 ^ Z.of_nat e) = Ok f /\
    forall data (forward : bool) buffer, lenZ data = 2 ^ Z.of_nat e -> lenZ data <= 2 * lenZ buffer ->
      exists data' buffer', compute O T f data (lenZ data) forward buffer (lenZ buffer) = Ok (data', buffer').
Proof. exact Proof.FftCases.fft_total. Qed.
Print Assumptions fft_accepts_fitting_sizes.

Theorem fft_ignores_work_buffer : forall F (O : fops F) (T : trig_ops F) junk junk_int n f data (forward : bool) b b' y y' c c',
  n <= int_max -> srfft_new O T junk junk_int n = Ok f ->
  compute O T f data (lenZ data) forward b (lenZ b) = Ok (y, c) ->
  compute O T f data (lenZ data) forward b' (lenZ b') = Ok (y', c') -> y = y'.
Proof. exact Proof.FftCases.fft_buffer. Qed.
Print Assumptions fft_ignores_work_buffer.

Theorem fft_back_reads_before_check_refuted : forall F (O : fops F) (T : trig_ops F) junk junk_int,
  exists f, srfft_new O T junk junk_int 4 = Ok f /\
    compute O T f [] 0 false [f_zero O; f_zero O] 2 = Fault Undef.
Proof. exact Proof.FftCases.back_reads_first. Qed.
Print Assumptions fft_back_reads_before_check_refuted.
