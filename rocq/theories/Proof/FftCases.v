(** Theorems about the Fourier transform as they are used, and cases. *)
From Coq Require Import ZArith Reals List Bool Lia Lra.
From Verif.Base Require Import Prelude Lemmas.
From Verif.Model Require Import Arith Vector Matrix Srfft Exact.
From Verif.Spec Require Import FftSpec.
From Verif.Proof Require Import Loop Matrix SrfftSteps SrfftTable SrfftCalls Fft.
Import ListNotations.
Open Scope Z_scope.

Lemma quot_pow : forall l, Z.quot (2 ^ Z.of_nat (S l)) 2 = 2 ^ Z.of_nat l.
Proof. intros l. rewrite pow2_S, Z.mul_comm. apply Z.quot_mul. lia. Qed.

Lemma fft_both : forall junk junk_int e, (2 <= e <= 30)%nat ->
  exists f, srfft_new rops rtrig junk junk_int (2 ^ Z.of_nat e) = Ok f /\
  forall signal buffer, length signal = (2 ^ e)%nat -> (length signal <= 2 * length buffer)%nat ->
    exists b1 b2,
      compute rops rtrig f signal (lenZ signal) true buffer (lenZ buffer) = Ok (packed_dft signal, b1) /\
      compute rops rtrig f (packed_dft signal) (lenZ signal) false b1 (lenZ buffer) =
        Ok (map (Rmult (INR (length signal))) signal, b2).
Proof.
  intros junk ji e E. destruct e as [|l]; [lia|].
  destruct (new_ok rops rtrig junk ji l (2 ^ Z.of_nat (S l)) ltac:(lia) (quot_pow l)) as [f [Ef R]].
  exists f. split; [exact Ef|]. intros x buffer L B.
  assert (B' : (2 ^ l <= length buffer)%nat) by (rewrite L, Nat.pow_succ_r' in B; lia).
  destruct (forward_list l f x buffer ltac:(lia) R L B') as [b1 [E1 L1]].
  destruct (backward_list l f x b1 ltac:(lia) R L ltac:(lia)) as [b2 [E2 _]].
  exists b1, b2. split; [exact E1|].
  unfold lenZ in *. rewrite (packed_length l x L), L1 in E2. exact E2.
Qed.

Lemma fft_forward : forall junk junk_int e, (2 <= e <= 30)%nat ->
  exists f, srfft_new rops rtrig junk junk_int (2 ^ Z.of_nat e) = Ok f /\
  forall signal buffer, length signal = (2 ^ e)%nat -> (length signal <= 2 * length buffer)%nat ->
    exists b1, compute rops rtrig f signal (lenZ signal) true buffer (lenZ buffer) = Ok (packed_dft signal, b1).
Proof.
  intros junk ji e E. destruct (fft_both junk ji e E) as [f [Ef H]]. exists f. split; [exact Ef|].
  intros x b L B. destruct (H x b L B) as [b1 [b2 [A _]]]. eauto.
Qed.

Lemma fft_back : forall junk junk_int e, (2 <= e <= 30)%nat ->
  exists f, srfft_new rops rtrig junk junk_int (2 ^ Z.of_nat e) = Ok f /\
  forall signal buffer, length signal = (2 ^ e)%nat -> (length signal <= 2 * length buffer)%nat ->
    exists spectrum b1 b2,
      compute rops rtrig f signal (lenZ signal) true buffer (lenZ buffer) = Ok (spectrum, b1) /\
      compute rops rtrig f spectrum (lenZ signal) false b1 (lenZ buffer) =
        Ok (map (Rmult (INR (length signal))) signal, b2).
Proof.
  intros junk ji e E. destruct (fft_both junk ji e E) as [f [Ef H]]. exists f. split; [exact Ef|].
  intros x b L B. destruct (H x b L B) as [b1 [b2 [A A']]]. eauto.
Qed.

(** * Bounds *)

Lemma fft_bounds : forall F (O : fops F) (T : trig_ops F) junk junk_int n, n <= int_max ->
  srfft_new O T junk junk_int n = Fault Assert \/
  exists f, srfft_new O T junk junk_int n = Ok f /\
    forall data (forward : bool) buffer, forward = true \/ n <= lenZ data ->
      compute O T f data (lenZ data) forward buffer (lenZ buffer) = Fault Assert \/
      exists data' buffer', compute O T f data (lenZ data) forward buffer (lenZ buffer) = Ok (data', buffer') /\
        length data' = length data /\ length buffer' = length buffer.
Proof.
  intros F O T junk ji n N. destruct (new_checked O T junk ji n N) as [H|(l & f & Hl & Eq & E & R)]; [now left|right].
  exists f. split; [exact E|]. intros data forward buffer H.
  assert (Q : forward = false -> 2 * 2 ^ Z.of_nat l <= lenZ data).
  { intros ->. destruct H as [H|H]; [discriminate|]. rewrite <- Eq.
    pose proof (pow2_pos l) as P. rewrite <- Eq in P.
    assert (0 <= n). { destruct (Z.le_gt_cases 0 n); [assumption|]. pose proof (Z.quot_le_mono n 0 2 ltac:(lia) ltac:(lia)) as Q. change (Z.quot 0 2) with 0 in Q. lia. }
    rewrite Z.quot_div_nonneg by lia. pose proof (Z.mul_div_le n 2 ltac:(lia)). lia. }
  destruct (Z.eq_dec (lenZ data) (2 * 2 ^ Z.of_nat l)) as [L|L].
  - destruct (Z.le_gt_cases (2 ^ Z.of_nat l) (lenZ buffer)) as [B|B].
    + right. destruct (compute_ok O T l f forward data buffer ltac:(lia) R L B) as [y [b (Ec & Ly & Lb & _)]].
      exists y, b. split; [exact Ec|]. unfold lenZ in *. lia.
    + left. apply (compute_checked O T l); auto; lia.
  - left. apply (compute_checked O T l); auto; lia.
Qed.

Lemma fft_total : forall F (O : fops F) (T : trig_ops F) junk junk_int e, (2 <= e <= 30)%nat ->
  exists f, srfft_new O T junk junk_int (2 ^ Z.of_nat e) = Ok f /\
    forall data (forward : bool) buffer, lenZ data = 2 ^ Z.of_nat e -> lenZ data <= 2 * lenZ buffer ->
      exists data' buffer', compute O T f data (lenZ data) forward buffer (lenZ buffer) = Ok (data', buffer').
Proof.
  intros F O T junk ji e E. destruct e as [|l]; [lia|].
  destruct (new_ok O T junk ji l (2 ^ Z.of_nat (S l)) ltac:(lia) (quot_pow l)) as [f [Ef R]].
  exists f. split; [exact Ef|]. intros data forward buffer L B. rewrite pow2_S in L.
  destruct (compute_ok O T l f forward data buffer ltac:(lia) R L ltac:(lia)) as [y [b (Ec & _)]]. eauto.
Qed.

(** The contents of the work buffer do not matter. *)
Lemma fft_buffer : forall F (O : fops F) (T : trig_ops F) junk junk_int n f data (forward : bool) b b' y y' c c', n <= int_max ->
  srfft_new O T junk junk_int n = Ok f ->
  compute O T f data (lenZ data) forward b (lenZ b) = Ok (y, c) ->
  compute O T f data (lenZ data) forward b' (lenZ b') = Ok (y', c') -> y = y'.
Proof.
  intros F O T junk ji n f data forward b b' y y' c c' N E E1 E2.
  destruct (new_checked O T junk ji n N) as [H|(l & f' & Hl & Eq & E' & R)]; [congruence|].
  assert (f' = f) as -> by congruence.
  assert (K : forall buf z d, compute O T f data (lenZ data) forward buf (lenZ buf) = Ok (z, d) ->
            (forward = false -> 2 * 2 ^ Z.of_nat l <= lenZ data) ->
            lenZ data = 2 * 2 ^ Z.of_nat l /\ 2 ^ Z.of_nat l <= lenZ buf).
  { intros buf z d Ez Q. destruct (Z.eq_dec (lenZ data) (2 * 2 ^ Z.of_nat l)) as [L|L];
      [destruct (Z.le_gt_cases (2 ^ Z.of_nat l) (lenZ buf)) as [B|B]; [auto|]|];
      rewrite (compute_checked O T l f forward data buf ltac:(lia) R Q ltac:(lia)) in Ez; discriminate. }
  assert (Q : forward = false -> 2 * 2 ^ Z.of_nat l <= lenZ data).
  { intros ->. unfold compute in E1. cbn [bind] in E1. rewrite (proj1 R) in E1.
    apply bind_ok in E1. destruct E1 as [d0 [_ E1]]. apply bind_ok in E1. destruct E1 as [d1 [_ E1]].
    apply bind_ok in E1. destruct E1 as [d2 [_ E1]]. apply bind_ok in E1. destruct E1 as [d3 [_ E1]].
    apply bind_ok in E1. destruct E1 as [d4 [_ E1]]. apply bind_ok in E1. destruct E1 as [d5 [_ E1]].
    apply bind_ok in E1. destruct E1 as [d6 [_ E1]]. apply bind_ok in E1. destruct E1 as [d7 [_ E1]].
    apply bind_ok in E1. destruct E1 as [d8 [_ E1]]. apply bind_ok in E1. destruct E1 as [[d9 d10] [Ec _]].
    unfold complex_compute in Ec. rewrite (proj1 R) in Ec. destruct (Z.eqb_spec (lenZ data) (2 ^ Z.of_nat l * 2)); [lia|discriminate]. }
  destruct (K _ _ _ E1 Q) as [L B]. destruct (K _ _ _ E2 Q) as [_ B'].
  destruct (compute_ok O T l f forward data b ltac:(lia) R L B) as [z [d (Z1 & Lz & _ & V)]].
  destruct (compute_ok O T l f forward data b' ltac:(lia) R L B') as [z' [d' (Z2 & Lz' & _ & V')]].
  rewrite Z1 in E1. rewrite Z2 in E2. injection E1 as -> ->. injection E2 as -> ->.
  apply (pl_ext O _ _ (2 ^ Z.of_nat l)); [lia|lia|]. intros k Hk. now rewrite V, V'.
Qed.

(** The way back without data. *)
Lemma back_reads_first : forall F (O : fops F) (T : trig_ops F) junk junk_int,
  exists f, srfft_new O T junk junk_int 4 = Ok f /\
    compute O T f [] 0 false [f_zero O; f_zero O] 2 = Fault Undef.
Proof. intros F O T junk ji. eexists. split; reflexivity. Qed.

Open Scope R_scope.
Lemma packed_case : packed_dft [1; 2; 3; 4] = [10; -2; -2; 2].
Proof.
  unfold packed_dft. change (length [1; 2; 3; 4] / 2)%nat with 2%nat. change (2 - 1)%nat with 1%nat.
  cbn [app seq flat_map]. unfold dft_re, dft_im. cbn [length seq map nth sum_of fold_right].
  change (4 / 2)%nat with 2%nat. change (2 - 1)%nat with 1%nat. cbn [seq flat_map app].
  assert (A0 : forall N n, INR N <> 0 -> phase N 0 n = 0) by (intros N n H; unfold phase; cbn [INR]; field; exact H).
  assert (A1 : phase 4 1 0 = 0) by (unfold phase; cbn [INR]; field).
  assert (A2 : phase 4 1 1 = PI / 2) by (unfold phase; cbn [INR]; field).
  assert (A3 : phase 4 1 2 = PI) by (unfold phase; cbn [INR]; field).
  assert (A4 : phase 4 1 3 = PI + PI / 2) by (unfold phase; cbn [INR]; field).
  assert (A5 : phase 4 2 0 = 0) by (unfold phase; cbn [INR]; field).
  assert (A6 : phase 4 2 1 = PI) by (unfold phase; cbn [INR]; field).
  assert (A7 : phase 4 2 2 = 2 * PI) by (unfold phase; cbn [INR]; field).
  assert (A8 : phase 4 2 3 = 2 * PI + PI) by (unfold phase; cbn [INR]; field).
  rewrite !A0 by (cbn [INR]; lra).
  rewrite A1, A2, A3, A4, A5, A6, A7, A8.
  rewrite !cos_plus, !sin_plus, cos_0, sin_0, cos_PI, sin_PI, cos_2PI, sin_2PI, cos_PI2, sin_PI2.
  repeat (f_equal; try ring).
Qed.
