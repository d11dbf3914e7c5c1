(** A library that is close to the logarithm, and one that is not. *)
From Coq Require Import ZArith Reals List Bool Lia Lra Floats.SpecFloat.
From Verif.Base Require Import Prelude Lemmas.
From Verif.Model Require Import Arith Vector Fbank Srfft FbankInit Ieee IeeeFbank.
From Verif.Spec Require Import FbankSpec MelSpec LibmSpec ValueSpec.
From Verif.Proof Require Import FbankInit IeeeLaws IeeeReal IeeeClose MelClose FbankBound FiniteCases.
Import ListNotations.
Open Scope R_scope.

Lemma finite_between : forall (x : float32) e, (0 <= e <= 4)%Z -> in32 (1%Z, e) x -> is_finite (fl_val x) = true.
Proof.
  intros x e He (H1 & H2). cbn [fst snd] in *. assert (C : e = 0%Z \/ e = 1%Z \/ e = 2%Z \/ e = 3%Z \/ e = 4%Z) by lia.
  destruct (fl_val x) as [s|s| |s m k]; try reflexivity; exfalso.
  - destruct s, C as [-> | [-> | [-> | [-> | ->]]]]; vm_compute in H1, H2; discriminate.
  - destruct C as [-> | [-> | [-> | [-> | ->]]]]; vm_compute in H1, H2; discriminate.
Qed.

Lemma num32_real : forall n e, (Z.abs n < 16777216)%Z -> (- 140 <= e <= 100)%Z ->
  valid_binary 24 128 (num32 n e) = true /\ is_finite (num32 n e) = true /\ value (num32 n e) = IZR n * powerRZ 2 e.
Proof.
  intros n e Hn He. apply (normalize_real 24 128 p32 e32 S0 top0 h32 top0_32 h32' h32'' n e false Hn); [unfold emin; lia|lia].
Qed.

Lemma sfle_real : forall x y, valid_binary 24 128 x = true -> valid_binary 24 128 y = true -> is_finite x = true -> is_finite y = true ->
  SFleb x y = true <-> value x <= value y.
Proof. intros x y Vx Vy Fx Fy. apply (le_real 24 128 p32 e32 S0 top0 h32 top0_32 h32' h32''); assumption. Qed.

(** logf, rounded to the next multiple of 2 ^ -15. *)
Definition steps (x : float32) : Z := up (ln (val x) * 32768).
Definition stepped_logf (x : float32) : float32 := f32 (num32 (steps x) (-15)).
Definition fine_trig : trig_library := mk_trig_library
  (lib_cos rough_trig) (lib_sin rough_trig) (lib_cos_wide rough_trig) stepped_logf.

Lemma ln_bounds : forall x, / 2 <= x <= 16 -> - 1 <= ln x <= 7 / 2.
Proof.
  intros x H. split.
  - pose proof (ln_above x ltac:(lra)) as Q. assert (/ x <= / / 2) by (apply Rinv_le_contravar; lra). rewrite Rinv_inv in *. lra.
  - pose proof (ln_mono x 16 ltac:(lra) ltac:(lra)) as Q. replace 16 with (2 * (2 * (2 * 2))) in Q by ring.
    rewrite !ln_mult in Q by lra. pose proof (ln_below (3/2) ltac:(lra)). pose proof (ln_below (4/3) ltac:(lra)).
    assert (ln 2 = ln (3/2) + ln (4/3)) by (rewrite <- ln_mult by lra; f_equal; field). lra.
Qed.

Lemma stepped_close : forall x : float32, / 2 <= val x <= 16 ->
  close (stepped_logf x) (ln (val x)) (/ 1000) /\ Rabs (val (stepped_logf x)) <= 4.
Proof.
  intros x H. pose proof (ln_bounds _ H) as B. destruct (archimed (ln (val x) * 32768)) as (U1 & U2). fold (steps x) in U1, U2.
  assert (N : (Z.abs (steps x) < 16777216)%Z).
  { assert (-32769 < steps x)%Z by (apply lt_IZR; lra). assert (steps x < 200000)%Z by (apply lt_IZR; lra). lia. }
  destruct (num32_real (steps x) (-15) N ltac:(lia)) as (V & F & E).
  unfold close, stepped_logf, f32. rewrite (seal_val _ _ _ V). rewrite E.
  assert (P : powerRZ 2 (-15) = / 32768) by (change (-15)%Z with (- Z.of_nat 15)%Z; rewrite pw_neg; f_equal; ring). rewrite P.
  split; [split; [exact F|]|]; apply le_rabs; lra.
Qed.

Lemma fine_close : close_logf fine_trig.
Proof. intros x _ H. now apply stepped_close. Qed.

Lemma fine_libm : libm fine_trig.
Proof.
  destruct rough_libm as [H1 H2 H3 H4 _]. constructor; cbn [lib_cos lib_sin lib_cos_wide lib_logf fine_trig]; [exact H1|exact H2|exact H3|exact H4|].
  intros x Hl Hx. pose proof (finite_between x 4 ltac:(lia) Hx) as F. destruct Hx as (_ & Hu). cbn [fst snd] in Hu.
  destruct (num32_real 1 0 ltac:(lia) ltac:(lia)) as (V1 & F1 & E1), (num32_real 1 4 ltac:(lia) ltac:(lia)) as (V2 & F2 & E2).
  apply (sfle_real _ _ V1 (fl_valid x) F1 F) in Hl. apply (sfle_real _ _ (fl_valid x) V2 F F2) in Hu. rewrite E1 in Hl. rewrite E2 in Hu.
  assert (P0 : powerRZ 2 0 = 1) by reflexivity. assert (P4 : powerRZ 2 4 = 16) by (unfold powerRZ; change (Pos.to_nat 4) with 4%nat; ring). rewrite P0 in Hl. rewrite P4 in Hu.
  destruct (stepped_close x ltac:(lra)) as ((Fy & _) & By). apply rabs_le in By.
  destruct (num32_real (-1) 2 ltac:(lia) ltac:(lia)) as (V3 & F3 & E3), (num32_real 1 2 ltac:(lia) ltac:(lia)) as (V4 & F4 & E4).
  assert (P2 : powerRZ 2 2 = 4) by (unfold powerRZ; change (Pos.to_nat 2) with 2%nat; ring). rewrite P2 in E3, E4.
  split; cbn [fst snd]; apply sfle_real; try assumption; try apply fl_valid; change (- (1))%Z with (-1)%Z; rewrite ?E3, ?E4; lra.
Qed.

(** * A constant logf *)

Definition flat_trig : trig_library := mk_trig_library
  (lib_cos rough_trig) (lib_sin rough_trig) (lib_cos_wide rough_trig) (fun _ => f32 (S754_zero false)).

Lemma flat_libm : libm flat_trig.
Proof.
  destruct rough_libm as [H1 H2 H3 H4 _]. constructor; cbn [lib_cos lib_sin lib_cos_wide lib_logf flat_trig]; [exact H1|exact H2|exact H3|exact H4|].
  intros x _ _. split; vm_compute; reflexivity.
Qed.

Lemma flat_fails : forall L junk junk_int, fbank_new (ieee L) (ieee_trig flat_trig) (ieee_init flat_trig) junk junk_int = Fault Assert.
Proof.
  intros L junk junk_int. unfold fbank_new. change (round_up frame_length) with (Ok 512%Z). cbn [bind].
  assert (E : melbanks (ieee L) (ieee_init flat_trig) 512 = Fault Assert) by (vm_compute; reflexivity). now rewrite E.
Qed.
