(** Log probabilities in single precision: finite, or all infinite. *)
From Coq Require Import ZArith List Lia Bool Floats.SpecFloat.
From Verif.Base Require Import Prelude Lemmas.
From Verif.Model Require Import Arith Nnet Ieee.
From Verif.Spec Require Import LibmSpec PlainSpec ExpSpec.
From Verif.Proof Require Import Loop Rne Ieee IeeeLaws IeeeBound FbankBound.
Import ListNotations.
Open Scope Z_scope.

Section Limits.
Variables S top : Z.
Hypothesis HS : 2200 <= S.
Hypothesis Htop : 2 ^ (1024 + S) <= top.
Variable L : library.
Notation K x := (key S top (fl_val x)).
Notation n32 := (near_signed 24 128 S top).
Notation n64 := (near_signed 53 1024 S top).
Notation O := (ieee L).
Let P32 : 1 < 24. Proof. lia. Qed.
Let E32 : 24 < 128. Proof. lia. Qed.
Let P64 : 1 < 53. Proof. lia. Qed.
Let E64 : 53 < 1024. Proof. lia. Qed.
Let S32 : - S <= emin 24 128. Proof. unfold emin. lia. Qed.
Let S64 : - S <= emin 53 1024. Proof. unfold emin. lia. Qed.
Let T32 : 2 ^ (128 + S) <= top. Proof. pose proof (big S top HS). lia. Qed.

(** * Limits *)
Lemma exact32 : forall m e, Z.abs m < 2 ^ 24 -> -140 <= e <= 103 -> n32 (m * 2 ^ (e + S)) = m * 2 ^ (e + S).
Proof.
  assert (P : forall m e, 0 <= m < 2 ^ 24 -> -140 <= e <= 103 -> n32 (m * 2 ^ (e + S)) = m * 2 ^ (e + S)).
  { intros m e Hm He. pose proof (pow_pos (e + S) ltac:(lia)) as U.
    assert (0 <= m * 2 ^ (e + S)) by (apply Z.mul_nonneg_nonneg; lia).
    unfold near_signed. destruct (Z.ltb_spec (m * 2 ^ (e + S)) 0); [lia|]. apply near_multiple; auto; [unfold emin; lia|].
    apply Z.lt_le_trans with (2 ^ 24 * 2 ^ (e + S)); [apply Zmult_lt_compat_r; lia|].
    rewrite <- Z.pow_add_r by lia. apply Z.pow_le_mono_r; lia. }
  intros m e Hm He. destruct (Z.leb_spec 0 m); [apply P; lia|].
  replace (m * 2 ^ (e + S)) with (- (- m * 2 ^ (e + S))) by ring. rewrite near_signed_opp, P by (assumption || lia). reflexivity.
Qed.

Lemma exact64 : forall m e, Z.abs m < 2 ^ 24 -> -200 <= e <= 200 -> n64 (m * 2 ^ (e + S)) = m * 2 ^ (e + S).
Proof.
  assert (P : forall m e, 0 <= m < 2 ^ 24 -> -200 <= e <= 200 -> n64 (m * 2 ^ (e + S)) = m * 2 ^ (e + S)).
  { intros m e Hm He. pose proof (pow_pos (e + S) ltac:(lia)) as U. assert (2 ^ 24 < 2 ^ 53) by reflexivity.
    assert (0 <= m * 2 ^ (e + S)) by (apply Z.mul_nonneg_nonneg; lia).
    unfold near_signed. destruct (Z.ltb_spec (m * 2 ^ (e + S)) 0); [lia|]. apply near_multiple; auto; [lia|unfold emin; lia|].
    apply Z.lt_le_trans with (2 ^ 24 * 2 ^ (e + S)); [apply Zmult_lt_compat_r; lia|].
    rewrite <- Z.pow_add_r by lia. apply Z.pow_le_mono_r; lia. }
  intros m e Hm He. destruct (Z.leb_spec 0 m); [apply P; lia|].
  replace (m * 2 ^ (e + S)) with (- (- m * 2 ^ (e + S))) by ring. rewrite near_signed_opp, P by (assumption || lia). reflexivity.
Qed.

Lemma above_key : forall n e x, Z.abs n < 2 ^ 24 -> -200 <= e <= 200 ->
  above64 n e x <-> exists a, K x = Some a /\ n * 2 ^ (e + S) <= a.
Proof.
  intros n e x Hn He. unfold above64, num64. destruct (normalize_val 53 1024 P64 E64 S top S64 n e false ltac:(lia)) as (V & Kn).
  rewrite (le_val 53 1024 P64 E64 S top S64 Htop) by (assumption || apply fl_valid). rewrite Kn, exact64 by assumption.
  destruct (K x) as [a|]; [|split; [discriminate|intros (a & [=] & _)]].
  rewrite Z.leb_le. split; [eauto|]. intros (b & [= ->] & B). exact B.
Qed.

Lemma below_key : forall n e x, Z.abs n < 2 ^ 24 -> -200 <= e <= 200 ->
  below64 n e x <-> exists a, K x = Some a /\ a <= n * 2 ^ (e + S).
Proof.
  intros n e x Hn He. unfold below64, num64. destruct (normalize_val 53 1024 P64 E64 S top S64 n e false ltac:(lia)) as (V & Kn).
  rewrite (le_val 53 1024 P64 E64 S top S64 Htop) by (assumption || apply fl_valid). rewrite Kn, exact64 by assumption.
  destruct (K x) as [a|]; [|split; [discriminate|intros (a & [=] & _)]].
  rewrite Z.leb_le. split; [eauto|]. intros (b & [= ->] & B). exact B.
Qed.

Lemma above_key32 : forall n e x, Z.abs n < 2 ^ 24 -> -140 <= e <= 103 ->
  above32 n e x <-> exists a, K x = Some a /\ n * 2 ^ (e + S) <= a.
Proof.
  intros n e x Hn He. unfold above32, num32. destruct (normalize_val 24 128 P32 E32 S top S32 n e false ltac:(lia)) as (V & Kn).
  rewrite (le_val 24 128 P32 E32 S top S32 T32) by (assumption || apply fl_valid). rewrite Kn, exact32 by assumption.
  destruct (K x) as [a|]; [|split; [discriminate|intros (a & [=] & _)]].
  rewrite Z.leb_le. split; [eauto|]. intros (b & [= ->] & B). exact B.
Qed.

Lemma below_key32 : forall n e x, Z.abs n < 2 ^ 24 -> -140 <= e <= 103 ->
  below32 n e x <-> exists a, K x = Some a /\ a <= n * 2 ^ (e + S).
Proof.
  intros n e x Hn He. unfold below32, num32. destruct (normalize_val 24 128 P32 E32 S top S32 n e false ltac:(lia)) as (V & Kn).
  rewrite (le_val 24 128 P32 E32 S top S32 T32) by (assumption || apply fl_valid). rewrite Kn, exact32 by assumption.
  destruct (K x) as [a|]; [|split; [discriminate|intros (a & [=] & _)]].
  rewrite Z.leb_le. split; [eauto|]. intros (b & [= ->] & B). exact B.
Qed.

Lemma above_wide : forall n e x, Z.abs n < 2 ^ 24 -> -140 <= e <= 103 -> above32 n e x -> above64 n e (widen x).
Proof. intros n e x Hn He H. apply above_key32 in H; try assumption. apply above_key; try lia. now rewrite (widen_key S top HS). Qed.
Lemma below_wide : forall n e x, Z.abs n < 2 ^ 24 -> -140 <= e <= 103 -> below32 n e x -> below64 n e (widen x).
Proof. intros n e x Hn He H. apply below_key32 in H; try assumption. apply below_key; try lia. now rewrite (widen_key S top HS). Qed.

Lemma over32 : n32 (2 ^ (128 + S)) = top.
Proof.
  destruct (normalize_val 24 128 P32 E32 S top S32 1 128 false ltac:(lia)) as (_ & Kn). rewrite Z.mul_1_l in Kn.
  change (binary_normalize 24 128 1 128 false) with (S754_infinity false) in Kn. cbn [key opp_if] in Kn. congruence.
Qed.
Lemma under32 : n32 (2 ^ (-151 + S)) = 0.
Proof.
  destruct (normalize_val 24 128 P32 E32 S top S32 1 (-151) false ltac:(lia)) as (_ & Kn). rewrite Z.mul_1_l in Kn.
  change (binary_normalize 24 128 1 (-151) false) with (S754_zero false) in Kn. cbn [key opp_if] in Kn. congruence.
Qed.
Lemma zero32 : n32 0 = 0.
Proof. exact (near_signed_key 24 128 P32 E32 S top S32 (S754_zero true) 0 eq_refl eq_refl eq_refl). Qed.

(** * Sums *)
Definition some (x : float32) : Prop := exists a, K x = Some a /\ 0 <= a.
Definition infinite (x : float32) : Prop := fl_val x = S754_infinity false.

Lemma infinite_by : forall (x : float32) a, K x = Some a -> 2 ^ (128 + S) <= a -> infinite x.
Proof.
  intros x a Ka B. unfold infinite. pose proof (pow_pos (128 + S) ltac:(lia)).
  destruct (is_finite (fl_val x)) eqn:Fx; [pose proof (bound32 S top HS x a Fx Ka); lia|].
  destruct (fl_val x) as [s|s| |s m e]; try discriminate. cbn [key] in Ka. apply some_inj in Ka. destruct s; cbn [opp_if] in Ka; [lia|reflexivity].
Qed.

Lemma add_some : forall x y, some x -> some y -> some (f_add O x y) /\ (infinite x \/ infinite y -> infinite (f_add O x y)).
Proof.
  intros x y (a & Ka & Pa) (b & Kb & Pb). pose proof (pow_pos (128 + S) ltac:(lia)) as U. unfold some, infinite. rewrite (add32_val S top HS).
  destruct (is_finite (fl_val x)) eqn:Fx, (is_finite (fl_val y)) eqn:Fy.
  - destruct (add_val 24 128 P32 E32 S top S32 (fl_val x) (fl_val y) a b (fl_valid x) (fl_valid y) Fx Fy Ka Kb) as (_ & Ks).
    split; [exists (n32 (a + b)); split; [exact Ks|]; rewrite <- zero32; apply mono32; auto; lia|].
    intros [E|E]; [rewrite E in Fx; discriminate Fx|rewrite E in Fy; discriminate Fy].
  - destruct (fl_val y) as [s|s| |s m e]; try discriminate. cbn [key] in Kb. apply some_inj in Kb. destruct s; cbn [opp_if] in Kb; [lia|].
    destruct (fl_val x) as [s'|s'| |s' m' e']; try discriminate; cbn [SFadd]; (split; [exists top; split; [reflexivity|lia]|reflexivity]).
  - destruct (fl_val x) as [s|s| |s m e]; try discriminate. cbn [key] in Ka. apply some_inj in Ka. destruct s; cbn [opp_if] in Ka; [lia|].
    destruct (fl_val y) as [s'|s'| |s' m' e']; try discriminate; cbn [SFadd]; (split; [exists top; split; [reflexivity|lia]|reflexivity]).
  - destruct (fl_val x) as [s|s| |s m e]; try discriminate. cbn [key] in Ka. apply some_inj in Ka. destruct s; cbn [opp_if] in Ka; [lia|].
    destruct (fl_val y) as [s'|s'| |s' m' e']; try discriminate. cbn [key] in Kb. apply some_inj in Kb. destruct s'; cbn [opp_if] in Kb; [lia|].
    cbn [SFadd Bool.eqb]. split; [exists top; split; [reflexivity|lia]|reflexivity].
Qed.

Lemma narrow_some : forall y, above64 0 0 y -> some (narrow y).
Proof.
  intros y H. apply above_key in H; try lia. destruct H as (a & Ka & Pa). rewrite Z.mul_0_l in Pa. unfold some. pose proof (pow_pos (128 + S) ltac:(lia)) as U.
  destruct (is_finite (fl_val y)) eqn:Fy.
  - exists (n32 a). split; [now apply narrow_key|]. rewrite <- zero32. apply mono32; auto.
  - rewrite (narrow_val S top HS). destruct (fl_val y) as [s|s| |s m e]; try discriminate. cbn [key] in Ka. apply some_inj in Ka. destruct s; cbn [opp_if] in Ka; [lia|].
    exists top. split; [reflexivity|lia].
Qed.

Lemma narrow_over : forall y, above64 1 128 y -> infinite (narrow y).
Proof.
  intros y H. apply above_key in H; try lia. destruct H as (a & Ka & Pa). rewrite Z.mul_1_l in Pa. pose proof (pow_pos (128 + S) ltac:(lia)) as U.
  destruct (is_finite (fl_val y)) eqn:Fy.
  - apply (infinite_by _ (n32 a)); [now apply narrow_key|]. pose proof over32 as Eo. assert (n32 (2 ^ (128 + S)) <= n32 a) by (apply mono32; auto). rewrite Eo in *. lia.
  - unfold infinite. rewrite (narrow_val S top HS). destruct (fl_val y) as [s|s| |s m e]; try discriminate. cbn [key] in Ka. apply some_inj in Ka. destruct s; cbn [opp_if] in Ka; [lia|]. reflexivity.
Qed.

Definition null (x : float32) : Prop := exists s, fl_val x = S754_zero s.
Lemma null_by : forall x : float32, K x = Some 0 -> null x.
Proof.
  intros x Kx. unfold null. pose proof (pow_pos (128 + S) ltac:(lia)). destruct (fl_val x) as [s|s| |s m e] eqn:E; [eauto| |discriminate|].
  - cbn [key] in Kx. apply some_inj in Kx. destruct s; cbn [opp_if] in Kx; lia.
  - pose proof (fl_valid x) as V. rewrite E in V. pose proof (valid_facts 24 128 P32 S S32 _ _ _ V) as (_ & _ & _ & G).
    cbn [key] in Kx. apply some_inj in Kx. destruct s; cbn [opp_if] in Kx; lia.
Qed.

Lemma narrow_under : forall y, above64 0 0 y -> below64 1 (-151) y -> null (narrow y).
Proof.
  intros y H1 H2. apply above_key in H1; try lia. apply below_key in H2; try lia. destruct H1 as (a & Ka & Pa). destruct H2 as (b & Kb & Pb).
  rewrite Kb in Ka. apply some_inj in Ka. subst b. rewrite Z.mul_0_l in Pa. rewrite Z.mul_1_l in Pb.
  assert (Fy : is_finite (fl_val y) = true).
  { apply (finite64 S top Htop y a Kb). assert (2 ^ (-151 + S) < 2 ^ (1024 + S)) by (apply Z.pow_lt_mono_r; lia). lia. }
  apply null_by. rewrite (narrow_key S top HS y a Fy Kb). f_equal.
  assert (0 <= n32 a) by (rewrite <- zero32; apply mono32; auto).
  assert (n32 a <= 0) by (rewrite <- under32; apply mono32; auto). lia.
Qed.

Lemma null_add : forall x y, null x -> null y -> null (f_add O x y).
Proof.
  intros x y (s & Ex) (t & Ey). unfold null. rewrite (add32_val S top HS), Ex, Ey. cbn [SFadd]. destruct (Bool.eqb s t); eauto.
Qed.

(** * Finite log probabilities *)
Section Mild.
Hypothesis Se : sane_exp L.
Notation U := (2 ^ (103 + S)).

Lemma unit103 : 0 < U. Proof. apply pow_pos. lia. Qed.
Lemma pow116 : 2 ^ (116 + S) = 8192 * U.
Proof. replace (116 + S) with (13 + (103 + S)) by lia. rewrite Z.pow_add_r by lia. reflexivity. Qed.
Lemma low_pos : 0 < 2 ^ (-116 + S). Proof. apply pow_pos. lia. Qed.
Lemma small_top : 16777216 * U < 2 ^ (128 + S).
Proof. change 16777216 with (2 ^ 24). rewrite <- Z.pow_add_r by lia. apply Z.pow_lt_mono_r; lia. Qed.

(** The sum is between [lo] and [j * 2 ^ 116]. *)
Definition between (lo j : Z) (x : float32) : Prop := exists a, K x = Some a /\ lo <= a <= j * (8192 * U).

Lemma add_between : forall x y l1 l2 i j, 0 <= i -> 0 <= j -> i + j < 2048 -> 0 <= l1 -> 0 <= l2 ->
  between l1 i x -> between l2 j y -> n32 l1 = l1 -> n32 l2 = l2 -> between (Z.max l1 l2) (i + j) (f_add O x y).
Proof.
  intros x y l1 l2 i j Hi Hj Hij Hl1 Hl2 (a & Ka & La & Ba) (b & Kb & Lb & Bb) N1 N2. pose proof unit103 as PU. pose proof small_top as ST.
  assert (I : i * (8192 * U) <= 16777216 * U) by (rewrite Z.mul_assoc; apply Z.mul_le_mono_nonneg_r; lia).
  assert (J : j * (8192 * U) <= 16777216 * U) by (rewrite Z.mul_assoc; apply Z.mul_le_mono_nonneg_r; lia).
  assert (Fx : is_finite (fl_val x) = true) by (apply (finite32 S top HS Htop x a Ka); lia).
  assert (Fy : is_finite (fl_val y) = true) by (apply (finite32 S top HS Htop y b Kb); lia).
  destruct (add_val 24 128 P32 E32 S top S32 (fl_val x) (fl_val y) a b (fl_valid x) (fl_valid y) Fx Fy Ka Kb) as (_ & Ks).
  exists (n32 (a + b)). rewrite (add32_val S top HS). split; [exact Ks|]. split.
  - apply Z.max_lub; [rewrite <- N1|rewrite <- N2]; apply mono32; auto; lia.
  - pose proof (exact32 ((i + j) * 8192) 103 ltac:(lia) ltac:(lia)) as E.
    replace ((i + j) * (8192 * U)) with ((i + j) * 8192 * U) by ring. rewrite <- E. apply mono32; auto. rewrite <- Z.mul_assoc, Z.mul_add_distr_r. lia.
Qed.

Lemma exp_between : forall x, is_finite (fl_val x) = true -> below32 80 0 x ->
  between 0 1 (f_exp O x) /\ (above32 (-80) 0 x -> between (2 ^ (-116 + S)) 1 (f_exp O x)).
Proof.
  intros x Fx Bx. pose proof unit103 as PU. pose proof small_top as ST. pose proof (big S top HS) as Bg. pose proof low_pos as LP.
  apply below_wide in Bx; try lia. destruct (se_low L Se (widen x)) as (A & B); [now rewrite (widen_finite S top HS)|exact Bx|].
  apply above_key in A; try lia. apply below_key in B; try lia. destruct A as (a & Ka & Pa). destruct B as (b & Kb & Pb).
  rewrite Kb in Ka. apply some_inj in Ka. subst b. rewrite Z.mul_0_l in Pa. rewrite Z.mul_1_l, pow116 in Pb.
  assert (Fe : is_finite (fl_val (lib_exp L (widen x))) = true) by (apply (finite64 S top Htop _ a Kb); lia).
  pose proof (narrow_key S top HS _ a Fe Kb) as Kn.
  assert (Up : n32 a <= 1 * (8192 * U)).
  { pose proof (exact32 8192 103 ltac:(lia) ltac:(lia)) as E. rewrite Z.mul_1_l, <- E. apply mono32; auto. }
  split; [exists (n32 a); split; [exact Kn|]; split; [rewrite <- zero32; apply mono32; auto|exact Up]|].
  intros Ax. apply above_wide in Ax; try lia. pose proof (se_mid L Se _ Bx Ax) as M. apply above_key in M; try lia. destruct M as (b & Kb' & Pb').
  rewrite Kb in Kb'. apply some_inj in Kb'. subst b. rewrite Z.mul_1_l in Pb'.
  exists (n32 a). split; [exact Kn|]. split; [|exact Up].
  pose proof (exact32 1 (-116) ltac:(lia) ltac:(lia)) as E. rewrite Z.mul_1_l in E. rewrite <- E at 1. apply mono32; auto.
Qed.

Lemma low_exact : n32 (2 ^ (-116 + S)) = 2 ^ (-116 + S).
Proof. pose proof (exact32 1 (-116) ltac:(lia) ltac:(lia)) as E. now rewrite Z.mul_1_l in E. Qed.

Lemma sum_between : forall row s l j, Forall (fun x => is_finite (fl_val x) = true /\ below32 80 0 x) row ->
  (l = 0 \/ l = 2 ^ (-116 + S)) -> 0 <= j -> j + lenZ row < 2048 -> between l j s ->
  let r := fold_left (fun s x => f_add O s (f_exp O x)) row s in
  between l (j + lenZ row) r /\ (Exists (above32 (-80) 0) row -> between (2 ^ (-116 + S)) (j + lenZ row) r).
Proof.
  pose proof low_pos as LP.
  induction row as [|x row IH]; intros s l j Hr Hl Hj Hn Hs; cbn [fold_left].
  - change (lenZ (@nil float32)) with 0. rewrite Z.add_0_r. split; [exact Hs|]. intros H. inversion H.
  - inversion Hr as [|? ? (Fx & Bx) Hr']; subst. destruct (exp_between x Fx Bx) as (E1 & E2).
    assert (Ln : lenZ (x :: row) = 1 + lenZ row) by (unfold lenZ; cbn [List.length]; lia). rewrite Ln in *.
    pose proof (lenZ_nonneg _ row) as Nn.
    assert (Nl : n32 l = l) by (destruct Hl as [->| ->]; [apply zero32|apply low_exact]).
    assert (Pl : 0 <= l) by (destruct Hl; lia).
    pose proof (add_between s (f_exp O x) l 0 j 1 Hj ltac:(lia) ltac:(lia) Pl ltac:(lia) Hs E1 Nl zero32) as A. rewrite Z.max_l in A by lia.
    destruct (IH (f_add O s (f_exp O x)) l (j + 1) Hr' Hl ltac:(lia) ltac:(lia) A) as (B1 & B2).
    replace (j + (1 + lenZ row)) with (j + 1 + lenZ row) by ring. split; [exact B1|].
    intros H. inversion H as [? ? H'|? ? H']; subst; [|now apply B2].
    pose proof (add_between s (f_exp O x) l (2 ^ (-116 + S)) j 1 Hj ltac:(lia) ltac:(lia) Pl ltac:(lia) Hs (E2 H') Nl low_exact) as A'.
    rewrite Z.max_r in A' by (destruct Hl; lia).
    exact (proj1 (IH _ _ (j + 1) Hr' (or_intror eq_refl) ltac:(lia) ltac:(lia) A')).
Qed.

Lemma finite_at : forall row, mild row -> Forall (in32 (1, 99)) (apply_log_softmax O row).
Proof.
  intros row [Hr He Hn]. pose proof unit103 as PU. pose proof small_top as ST. pose proof (big S top HS) as Bg. pose proof low_pos as LP.
  assert (P98 : 2 ^ (98 + S) < 2 ^ (128 + S)) by (apply Z.pow_lt_mono_r; lia).
  assert (P7 : 2 ^ (7 + S) <= 2 ^ (98 + S)) by (apply Z.pow_le_mono_r; lia).
  assert (P99 : 2 ^ (99 + S) = 2 * 2 ^ (98 + S)) by (replace (99 + S) with (1 + (98 + S)) by lia; rewrite Z.pow_add_r by lia; reflexivity).
  assert (Hf : Forall (fun x => is_finite (fl_val x) = true /\ below32 80 0 x) row).
  { revert Hr. apply Forall_impl. intros x (I & B). split; [|exact B]. destruct (in32_key S top HS Htop 98 x ltac:(lia) I) as (a & Ka & Ba).
    apply (finite32 S top HS Htop x a Ka). lia. }
  destruct (sum_between row (f_zero O) 0 0 Hf (or_introl eq_refl) ltac:(lia) ltac:(lia)) as (_ & H).
  { exists 0. split; [reflexivity|]. lia. }
  specialize (H He). unfold apply_log_softmax. set (sum := fold_left _ row (f_zero O)) in *. rewrite Z.add_0_l in H. destruct H as (a & Ka & La & Ba).
  pose proof (lenZ_nonneg _ row) as Nn.
  assert (Q : lenZ row * (8192 * U) <= 1024 * (8192 * U)) by (apply Z.mul_le_mono_nonneg_r; lia).
  assert (Q2 : 2 ^ (127 + S) = 16777216 * U) by (change 16777216 with (2 ^ 24); rewrite <- Z.pow_add_r by lia; f_equal; lia).
  assert (Hlog : in64 (1, 7) (lib_log L (widen sum))).
  { apply (se_log L Se).
    - apply above_key; try lia. rewrite (widen_key S top HS). exists a. split; [exact Ka|]. lia.
    - apply below_key; try lia. rewrite (widen_key S top HS). exists a. split; [exact Ka|]. lia. }
  destruct (in64_key S top HS Htop 7 _ ltac:(lia) Hlog) as (b & Kb & Bb).
  assert (Fb : is_finite (fl_val (lib_log L (widen sum))) = true) by (apply (finite64 S top Htop _ b Kb); lia).
  pose proof (narrow_key S top HS _ b Fb Kb) as Kl.
  assert (Bl : Z.abs (n32 b) <= 2 ^ (7 + S)).
  { apply (ns_abs 24 128 P32 E32 S top S32 T32); [exact Bb|]. pose proof (exact32 1 7 ltac:(lia) ltac:(lia)) as E. now rewrite Z.mul_1_l in E. }
  assert (Fl : is_finite (fl_val (f_log O sum)) = true) by (apply (finite32 S top HS Htop _ (n32 b) Kl); lia).
  apply Forall_forall. intros y J. apply in_map_iff in J. destruct J as (x & <- & J).
  rewrite Forall_forall in Hr, Hf. destruct (Hf x J) as (Fx & _). destruct (Hr x J) as (Ix & _).
  destruct (in32_key S top HS Htop 98 x ltac:(lia) Ix) as (c & Kc & Bc).
  destruct (sub_le 24 128 P32 E32 S top S32 T32 (fl_val x) (fl_val (f_log O sum)) c (n32 b) (2 ^ (99 + S)) (fl_valid x) (fl_valid _) Fx Fl Kc Kl) as (k & Kk & Bk).
  - lia.
  - pose proof (exact32 1 99 ltac:(lia) ltac:(lia)) as E. now rewrite Z.mul_1_l in E.
  - apply (key_in32 S top HS Htop 99 _ k); [lia| |exact Bk]. now rewrite (sub32_val S top HS).
Qed.
End Mild.

(** * Overflow and underflow *)
Hypothesis St : steep_exp L.

Lemma exp_some : forall x, is_finite (fl_val x) = true -> some (f_exp O x).
Proof. intros x Fx. apply narrow_some. apply (st_sign L St). now rewrite (widen_finite S top HS). Qed.

Lemma sum_some : forall row s, Forall (fun x => is_finite (fl_val x) = true) row -> some s ->
  let r := fold_left (fun s x => f_add O s (f_exp O x)) row s in
  some r /\ (infinite s \/ Exists (above32 89 0) row -> infinite r).
Proof.
  induction row as [|x row IH]; intros s Hr Hs; cbn [fold_left].
  - split; [exact Hs|]. intros [H|H]; [exact H|inversion H].
  - inversion Hr as [|? ? Fx Hr']; subst. destruct (add_some s (f_exp O x) Hs (exp_some x Fx)) as (A1 & A2).
    destruct (IH (f_add O s (f_exp O x)) Hr' A1) as (B1 & B2). split; [exact B1|]. intros [H|H]; apply B2.
    + left. apply A2. now left.
    + inversion H as [? ? H'|? ? H']; subst; [|now right]. left. apply A2. right. apply narrow_over. apply (st_over L St).
      * now rewrite (widen_finite S top HS).
      * apply above_wide; try lia. exact H'.
Qed.

Lemma overflow_at : forall row, Forall (fun x => is_finite (fl_val x) = true) row -> Exists (above32 89 0) row ->
  apply_log_softmax O row = map (fun _ => minus_inf) row.
Proof.
  intros row Hr He. destruct (sum_some row (f_zero O) Hr) as (_ & H); [exists 0; split; [reflexivity|lia]|]. specialize (H (or_intror He)).
  unfold apply_log_softmax. set (sum := fold_left _ row (f_zero O)) in *.
  assert (El : fl_val (f_log O sum) = S754_infinity false).
  { cbn [f_log ieee]. rewrite (narrow_val S top HS). assert (widen sum = f64 (S754_infinity false)) as ->.
    { apply fl_eq. rewrite (widen_val S top HS), H. reflexivity. }
    rewrite (st_inf L St). reflexivity. }
  apply map_ext_in. intros x J. apply fl_eq. rewrite (sub32_val S top HS), El. rewrite Forall_forall in Hr. specialize (Hr x J).
  destruct (fl_val x) as [s|s| |s m e]; try discriminate; reflexivity.
Qed.

Lemma sum_null : forall row s, Forall (fun x => is_finite (fl_val x) = true /\ below32 (-105) 0 x) row -> null s ->
  null (fold_left (fun s x => f_add O s (f_exp O x)) row s).
Proof.
  induction row as [|x row IH]; intros s Hr Hs; cbn [fold_left]; [exact Hs|].
  inversion Hr as [|? ? (Fx & Bx) Hr']; subst. apply IH; [exact Hr'|]. apply null_add; [exact Hs|]. apply narrow_under.
  - apply (st_sign L St). now rewrite (widen_finite S top HS).
  - apply (st_under L St); [now rewrite (widen_finite S top HS)|]. apply below_wide; try lia. exact Bx.
Qed.

Lemma underflow_at : forall row, Forall (fun x => is_finite (fl_val x) = true /\ below32 (-105) 0 x) row ->
  apply_log_softmax O row = map (fun _ => plus_inf) row.
Proof.
  intros row Hr. pose proof (sum_null row (f_zero O) Hr ltac:(exists false; reflexivity)) as (s & H).
  unfold apply_log_softmax. set (sum := fold_left _ row (f_zero O)) in *.
  assert (El : fl_val (f_log O sum) = S754_infinity true).
  { cbn [f_log ieee]. rewrite (narrow_val S top HS). assert (widen sum = f64 (S754_zero s)) as ->.
    { apply fl_eq. rewrite (widen_val S top HS), H. destruct s; reflexivity. }
    rewrite (st_zero L St). reflexivity. }
  apply map_ext_in. intros x J. apply fl_eq. rewrite (sub32_val S top HS), El. rewrite Forall_forall in Hr. destruct (Hr x J) as (Fx & _).
  destruct (fl_val x) as [s'|s'| |s' m e]; try discriminate; reflexivity.
Qed.

Lemma minus_prior : forall x y, in32 (1, 99) x -> in32 (1, 98) y -> in32 (1, 100) (f_add O x (f_mul O (f_minus_one O) y)).
Proof.
  intros x y Hx Hy. destruct (in32_key S top HS Htop 99 x ltac:(lia) Hx) as (a & Ka & Ba). destruct (in32_key S top HS Htop 98 y ltac:(lia) Hy) as (b & Kb & Bb).
  assert (P98 : 2 ^ (98 + S) < 2 ^ (128 + S)) by (apply Z.pow_lt_mono_r; lia).
  assert (P99 : 2 ^ (99 + S) < 2 ^ (128 + S)) by (apply Z.pow_lt_mono_r; lia).
  assert (Q : 2 ^ (98 + S) <= 2 ^ (99 + S)) by (apply Z.pow_le_mono_r; lia).
  assert (P100 : 2 ^ (100 + S) = 2 * 2 ^ (99 + S)) by (replace (100 + S) with (1 + (99 + S)) by lia; rewrite Z.pow_add_r by lia; reflexivity).
  assert (Fx : is_finite (fl_val x) = true) by (apply (finite32 S top HS Htop x a Ka); lia).
  assert (Fy : is_finite (fl_val y) = true) by (apply (finite32 S top HS Htop y b Kb); lia).
  destruct (normalize_val 24 128 P32 E32 S top S32 (-1) 0 false ltac:(lia)) as (Vm & Km). rewrite exact32 in Km by lia.
  change (binary_normalize 24 128 (-1) 0 false) with (fl_val (f_minus_one O)) in Km.
  destruct (mul_le 24 128 P32 E32 S top S32 T32 (fl_val (f_minus_one O)) (fl_val y) (-1 * 2 ^ (0 + S)) b (2 ^ (98 + S)) ltac:(unfold emin; lia) (fl_valid _) (fl_valid _) eq_refl Fy Km Kb) as (c & Kc & Bc).
  - apply Z.pow_nonneg. lia.
  - rewrite Z.abs_mul, Z.add_0_l. rewrite (Z.abs_eq (2 ^ S)) by (apply Z.pow_nonneg; lia). change (Z.abs (-1)) with 1. rewrite Z.mul_1_l, Z.mul_comm.
    apply Z.mul_le_mono_nonneg_r; [apply Z.pow_nonneg; lia|exact Bb].
  - pose proof (exact32 1 98 ltac:(lia) ltac:(lia)) as E. now rewrite Z.mul_1_l in E.
  - assert (Kp : K (f_mul O (f_minus_one O) y) = Some c) by (rewrite (mul32_val S top HS Htop); exact Kc).
    assert (Fp : is_finite (fl_val (f_mul O (f_minus_one O) y)) = true) by (apply (finite32 S top HS Htop _ c Kp); lia).
    destruct (add_le 24 128 P32 E32 S top S32 T32 (fl_val x) (fl_val (f_mul O (f_minus_one O) y)) a c (2 ^ (100 + S)) (fl_valid x) (fl_valid _) Fx Fp Ka Kp) as (k & Kk & Bk).
    + lia.
    + pose proof (exact32 1 100 ltac:(lia) ltac:(lia)) as E. now rewrite Z.mul_1_l in E.
    + apply (key_in32 S top HS Htop 100 _ k); [lia| |exact Bk]. now rewrite (add32_val S top HS).
Qed.
End Limits.

Notation "'by64' f" := (f 2200 (2 ^ (1024 + 2200)) (Z.le_refl _) (Z.le_refl _)) (at level 10, only parsing).

Lemma log_softmax_finite : forall L (m old : matrix float32), sane_exp L -> Forall mild m ->
  exists m', propagate (ieee L) LogSoftmax m old = Ok m' /\ Forall (Forall (in32 (1, 99))) m' /\ map lenZ m' = map lenZ m.
Proof.
  intros L m old Se H. eexists. split; [reflexivity|]. split.
  - apply Forall_map. revert H. apply Forall_impl. intros row H. exact (by64 finite_at L Se row H).
  - rewrite map_map. apply map_ext. intros row. unfold apply_log_softmax, lenZ. now rewrite map_length.
Qed.

Lemma log_softmax_overflow : forall L (m old : matrix float32), steep_exp L ->
  Forall (fun row => Forall (fun x => is_finite (fl_val x) = true) row /\ Exists (above32 89 0) row) m ->
  propagate (ieee L) LogSoftmax m old = Ok (map (map (fun _ => minus_inf)) m).
Proof.
  intros L m old St H. cbn [propagate]. f_equal. apply map_ext_in. intros row J. rewrite Forall_forall in H. destruct (H row J) as (H1 & H2).
  exact (by64 overflow_at L St row H1 H2).
Qed.

Lemma log_softmax_underflow : forall L (m old : matrix float32), steep_exp L ->
  Forall (fun row => Forall (fun x => is_finite (fl_val x) = true /\ below32 (-105) 0 x) row) m ->
  propagate (ieee L) LogSoftmax m old = Ok (map (map (fun _ => plus_inf)) m).
Proof.
  intros L m old St H. cbn [propagate]. f_equal. apply map_ext_in. intros row J. rewrite Forall_forall in H.
  exact (by64 underflow_at L St row (H row J)).
Qed.
