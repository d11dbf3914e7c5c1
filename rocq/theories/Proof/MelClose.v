(** The mel filters in single precision: with any logf that is close to the
    logarithm, all of them have two lines, so that construction succeeds. *)
From Coq Require Import ZArith Reals List Bool Lia Lra Psatz Floats.SpecFloat.
From Verif.Base Require Import Prelude Lemmas.
From Verif.Model Require Import Arith Vector Fbank Srfft FbankInit Ieee IeeeFbank.
From Verif.Spec Require Import FbankSpec MelSpec ValueSpec.
From Verif.Proof Require Import FbankInit IeeeReal IeeeClose.
From Verif.Proof Require Mel.
Import ListNotations.
Open Scope R_scope.

(** * Filters with a margin *)

Definition wide (j i : nat) : bool :=
  (5 * Mel.edge_num j <? 4 * Mel.bin_num j i)%Z && (5 * Mel.bin_num (j + 2) i <? 4 * Mel.edge_num (j + 2))%Z.

Definition wide_bins : list nat :=
  [1; 3; 4; 6; 8; 9; 11; 14; 16; 18; 21; 23; 26; 29; 32; 36; 39; 43; 47; 52; 56; 61; 66; 72; 78; 84; 91; 98; 105;
   113; 122; 131; 140; 150; 161; 172; 185; 198; 211; 226]%nat.
Lemma wide_bins_ok : forallb (fun j => let i := nth j wide_bins 0%nat in wide j i && wide j (i + 1) && (i <? 255)%nat) (seq 0 40) = true.
Proof. vm_compute. reflexivity. Qed.

Lemma ln_below : forall x, 0 < x -> ln x <= x - 1.
Proof. intros x P. pose proof (exp_ineq1_le (ln x)) as E. rewrite exp_ln in E by exact P. lra. Qed.

Lemma ln_above : forall x, 0 < x -> 1 - / x <= ln x.
Proof.
  intros x P. assert (Q : 0 < / x) by now apply Rinv_0_lt_compat. pose proof (ln_below (/ x) Q) as E. rewrite ln_Rinv in E by exact P. lra.
Qed.

Lemma ln_mono : forall x y, 0 < x -> x <= y -> ln x <= ln y.
Proof. intros x y P [H|H]; [apply Rlt_le, ln_increasing; assumption|subst; lra]. Qed.

Lemma wide_ok : forall j i, (j + 2 <= 41)%nat -> wide j i = true ->
  edge j + 5 < mel (16000 * INR i / 512) /\ mel (16000 * INR i / 512) + 5 < edge (j + 2).
Proof.
  assert (L : 1 / 5 <= ln (5 / 4)) by (pose proof (ln_above (5 / 4) ltac:(lra)); lra).
  assert (G : forall A B c x y, 0 < A -> 0 < B -> 0 < c -> 41 * x = 1127 * ln A -> 41 * y = 1127 * ln B -> 5 * (A * c) < 4 * (B * c) -> x + 5 < y).
  { intros A B c x y PA PB Pc EA EB H. assert (H' : 5 / 4 * A < B) by (apply (Rmult_lt_reg_r c); lra).
    apply ln_increasing in H'; [|nra]. rewrite ln_mult in H' by lra. lra. }
  intros j i Hj H. unfold wide in H. apply andb_true_iff in H. destruct H as [H1 H2]. apply Z.ltb_lt in H1, H2.
  apply IZR_lt in H1, H2. rewrite !mult_IZR in H1, H2.
  assert (PE : forall k, 0 < Mel.ea ^ (41 - k) * Mel.eb ^ k)
    by (intros k; apply Rmult_lt_0_compat; apply pow_lt; unfold Mel.ea, Mel.eb; lra).
  assert (PC : 0 < Mel.ec i ^ 41) by (apply pow_lt; unfold Mel.ec; pose proof (pos_INR i); lra).
  pose proof (Mel.bin_ln i) as B. split.
  - destruct (Mel.scaled j i) as [P [E1 E2]]. rewrite E1, E2 in H1.
    exact (G _ _ _ _ _ (PE j) PC P (Mel.edge_ln j ltac:(lia)) B H1).
  - destruct (Mel.scaled (j + 2) i) as [P [E1 E2]]. rewrite E1, E2 in H2.
    exact (G _ _ _ _ _ PC (PE (j + 2)%nat) P B (Mel.edge_ln (j + 2) ltac:(lia)) H2).
Qed.

Lemma ln_close : forall x y e, / 2 <= x -> / 2 <= y -> Rabs (x - y) <= e -> Rabs (ln x - ln y) <= 2 * e.
Proof.
  assert (G : forall x y e, / 2 <= x -> / 2 <= y -> Rabs (x - y) <= e -> ln x - ln y <= 2 * e).
  { intros x y e Hx Hy B. apply rabs_le in B. assert (I : 0 < / y <= 2).
    { split; [apply Rinv_0_lt_compat; lra|]. rewrite <- (Rinv_inv 2). apply Rinv_le_contravar; lra. }
    pose proof (ln_below (x * / y) ltac:(apply Rmult_lt_0_compat; lra)) as E. rewrite ln_mult, ln_Rinv in E by lra.
    assert (x * / y - 1 = (x - y) * / y) by (field; lra). assert ((x - y) * / y <= 2 * e); [|lra].
    destruct (Rle_dec (x - y) 0); nra. }
  intros x y e Hx Hy B. apply le_rabs. pose proof (G x y e Hx Hy B). rewrite Rabs_minus_sym in B. pose proof (G y x e Hy Hx B). lra.
Qed.

(** * The mel scale *)

Lemma eta_small : 0 < eta <= / 10000000.
Proof.
  split; [apply eta_pos|]. unfold eta. apply Rinv_le_contravar; [lra|]. rewrite pow_IZR. apply IZR_le. vm_compute. discriminate.
Qed.
Lemma huge_large : 1000000 <= huge.
Proof. unfold huge. rewrite pow_IZR. apply IZR_le. vm_compute. discriminate. Qed.

Lemma mel_range : forall a, 0 <= a <= 8000 -> 0 <= mel a <= 13524.
Proof.
  intros a H. unfold mel. pose proof (ln_below (1 + a / 700) ltac:(lra)). pose proof (ln_mono 1 (1 + a / 700) ltac:(lra) ltac:(lra)) as Q.
  rewrite ln_1 in Q. lra.
Qed.

Section Close.
Variable L : library.
Variable M : trig_library.
Hypothesis HM : close_logf M.
Notation O := (ieee L).
Notation I := (ieee_init M).

Lemma mel_close : forall f a e, 0 <= a <= 8000 -> close f a e -> e <= / 1000 -> close (mel_scale O I f) (mel a) (115 / 100).
Proof.
  intros f a e Ha C He. pose proof eta_small as [E0 E1]. pose proof huge_large as HH.
  assert (C0 : close f a (/ 1000)) by (apply (close_more _ _ _ _ _ _ C); lra).
  assert (C1 : close (f_div O f (f_int O 700)) (a / 700) (3 / 1000000)).
  { apply (close_more _ _ _ _ _ _ (close_div_int L f 700 a _ 8000 ltac:(lia) C0 ltac:(apply le_rabs; lra) ltac:(lra))). lra. }
  assert (C2 : close (f_add O (f_int O 1) (f_div O f (f_int O 700))) (1 + a / 700) (5 / 1000000)).
  { apply (close_more _ _ _ _ _ _ (close_add L _ _ _ _ _ _ 13 (close_int L 1 ltac:(lia)) C1 ltac:(apply le_rabs; lra) ltac:(lra))). lra. }
  set (x := f_add O (f_int O 1) (f_div O f (f_int O 700))) in *.
  assert (R : 1 - 5 / 1000000 <= val x <= 13). { destruct C2 as (_ & B). apply rabs_le in B. lra. }
  destruct C2 as (F2 & B2). destruct (HM x F2 ltac:(lra)) as (F3 & B3).
  assert (C3 : close (lib_logf M x) (ln (1 + a / 700)) (/ 1000 + 10 / 1000000)).
  { split; [exact F3|]. replace (val (lib_logf M x) - ln (1 + a / 700))
      with ((val (lib_logf M x) - ln (val x)) + (ln (val x) - ln (1 + a / 700))) by ring.
    eapply Rle_trans; [apply Rabs_triang|].
    pose proof (ln_close (val x) (1 + a / 700) (5 / 1000000) ltac:(lra) ltac:(lra) B2). lra. }
  pose proof (mel_range a Ha) as MR.
  assert (ML : Rabs (ln (1 + a / 700)) <= 12). { unfold mel in MR. apply le_rabs. lra. }
  apply (close_more _ _ _ _ _ _ (close_mul L _ _ _ _ _ _ 1127 12 (close_int L 1127 ltac:(lia)) C3 ltac:(apply le_rabs; lra) ML ltac:(lra))). lra.
Qed.

Lemma edge_range : forall j, (j <= 41)%nat -> 0 <= edge j <= 13524.
Proof.
  intros j H. unfold edge. pose proof (mel_range 20 ltac:(lra)). pose proof (mel_range 8000 ltac:(lra)).
  assert (mel 20 <= mel 8000). { unfold mel. pose proof (ln_mono (1 + 20 / 700) (1 + 8000 / 700) ltac:(lra) ltac:(lra)). lra. }
  assert (P : 0 <= INR j <= 41). { split; [apply pos_INR|]. apply le_INR in H. replace (INR 41) with 41 in H by (cbn; lra). exact H. }
  set (d := (mel 8000 - mel 20) / 41). assert (0 <= d) by (unfold d; lra).
  assert (0 <= INR j * d <= 41 * d) by (split; [apply Rmult_le_pos; lra|apply Rmult_le_compat_r; lra]). unfold d in *. lra.
Qed.

Lemma edge_close : forall j, (0 <= j <= 41)%Z -> close (bank_edge O I j) (edge (Z.to_nat j)) (36 / 10).
Proof.
  intros j Hj. pose proof eta_small as [E0 E1]. pose proof huge_large as HH. pose proof (edge_range (Z.to_nat j) ltac:(lia)) as ER.
  assert (L20 : close (mel_scale O I (f_int O 20)) (mel 20) (115 / 100)) by (apply (mel_close _ _ 0); [lra|apply close_int; lia|lra]).
  assert (L80 : close (mel_scale O I (f_int O 8000)) (mel 8000) (115 / 100)) by (apply (mel_close _ _ 0); [lra|apply close_int; lia|lra]).
  pose proof (mel_range 20 ltac:(lra)) as R20. pose proof (mel_range 8000 ltac:(lra)) as R80.
  unfold bank_edge. cbv zeta. set (lo := mel_scale O I (f_int O 20)) in *. set (hi := mel_scale O I (f_int O 8000)) in *.
  assert (C1 : close (f_sub O hi lo) (mel 8000 - mel 20) (2302 / 1000)).
  { apply (close_more _ _ _ _ _ _ (close_sub L _ _ _ _ _ _ 13524 L80 L20 ltac:(apply le_rabs; lra) ltac:(lra))). lra. }
  assert (C2 : close (f_div O (f_sub O hi lo) (f_int O 41)) ((mel 8000 - mel 20) / 41) (57 / 1000)).
  { apply (close_more _ _ _ _ _ _ (close_div_int L _ 41 _ _ 13524 ltac:(lia) C1 ltac:(apply le_rabs; lra) ltac:(lra))). lra. }
  assert (PJ : 0 <= IZR j <= 41) by (split; apply IZR_le; lia).
  assert (C3 : close (f_mul O (f_int O j) (f_div O (f_sub O hi lo) (f_int O 41))) (IZR j * ((mel 8000 - mel 20) / 41)) (2340 / 1000)).
  { apply (close_more _ _ _ _ _ _ (close_mul L _ _ _ _ _ _ 41 330 (close_int L j ltac:(lia)) C2 ltac:(apply le_rabs; lra) ltac:(apply le_rabs; lra) ltac:(lra))). lra. }
  unfold edge in ER |- *. rewrite INR_IZR_INZ, Z2Nat.id in ER |- * by lia.
  apply (close_more _ _ _ _ _ _ (close_add L _ _ _ _ _ _ 13524 L20 C3 ltac:(apply le_rabs; lra) ltac:(lra))). lra.
Qed.

Lemma line_close : forall i, (i < 256)%nat ->
  close (mel_scale O I (f_mul O (bank_width O) (f_int O (Z.of_nat i)))) (mel (16000 * INR i / 512)) (115 / 100).
Proof.
  intros i Hi. pose proof eta_small as [E0 E1]. pose proof huge_large as HH.
  assert (PI : 0 <= INR i <= 255).
  { split; [apply pos_INR|]. rewrite INR_IZR_INZ. apply IZR_le. lia. }
  assert (C1 : close (bank_width O) (16000 / 512) (/ 500000)).
  { apply (close_more _ _ _ _ _ _ (close_div_int L _ 512 _ _ 16000 ltac:(lia) (close_int L 16000 ltac:(lia)) ltac:(apply le_rabs; lra) ltac:(lra))). lra. }
  assert (C2 : close (f_mul O (bank_width O) (f_int O (Z.of_nat i))) (16000 / 512 * INR i) (/ 1000)).
  { rewrite INR_IZR_INZ in *.
    apply (close_more _ _ _ _ _ _ (close_mul L _ _ _ _ _ _ 32 255 C1 (close_int L (Z.of_nat i) ltac:(lia)) ltac:(apply le_rabs; lra) ltac:(apply le_rabs; lra) ltac:(lra))). lra. }
  replace (16000 / 512 * INR i) with (16000 * INR i / 512) in C2 by lra.
  assert (R : 0 <= 16000 * INR i / 512 <= 8000) by lra. apply (mel_close _ _ _ R C2). lra.
Qed.

Lemma close_lt : forall (x y : float32) a b ea eb, close x a ea -> close y b eb -> a + ea + eb < b -> f_lt O x y = true.
Proof.
  intros x y a b ea eb (Fx & Bx) (Fy & By) H. apply flt32; try assumption. apply rabs_le in Bx, By. lra.
Qed.

Lemma two_lines : forall j, (0 <= j < 40)%Z -> two_inside O I j.
Proof.
  intros j H. pose proof wide_bins_ok as Q. rewrite forallb_forall in Q.
  specialize (Q (Z.to_nat j) ltac:(apply in_seq; lia)). cbv zeta in Q. set (i := nth (Z.to_nat j) wide_bins 0%nat) in *.
  apply andb_true_iff in Q. destruct Q as [Q Q3]. apply andb_true_iff in Q. destruct Q as [Q1 Q2].
  apply Nat.ltb_lt in Q3. exists (Z.of_nat i), (Z.of_nat (i + 1)). split; [lia|]. split; [lia|].
  assert (G : forall i, (i < 256)%nat -> wide (Z.to_nat j) i = true ->
    inside O I (bank_width O) (bank_edge O I j) (bank_edge O I (j + 2)) (Z.of_nat i) = true).
  { clear - H HM. intros i Hi W. destruct (wide_ok (Z.to_nat j) i ltac:(lia) W) as [W1 W2].
    pose proof (line_close i Hi) as C. pose proof (edge_close j ltac:(lia)) as C1. pose proof (edge_close (j + 2) ltac:(lia)) as C2.
    replace (Z.to_nat (j + 2)) with (Z.to_nat j + 2)%nat in C2 by lia.
    unfold inside. apply andb_true_iff. split; [eapply close_lt; [exact C1|exact C|lra]|eapply close_lt; [exact C|exact C2|lra]]. }
  split; apply G; (lia || assumption).
Qed.

Lemma extractor_built : forall junk junk_int, exists fb, fbank_new O (ieee_trig M) I junk junk_int = Ok fb.
Proof.
  intros junk junk_int.
  destruct (fbank_new_ok O (ieee_trig M) I junk junk_int) as [[_ N]|[fb [f [E _]]]]; [destruct (N two_lines)|exists fb; exact E].
Qed.
End Close.
