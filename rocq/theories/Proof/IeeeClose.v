(** Operations on [float] and [double] as approximations of operations on reals. *)
From Coq Require Import ZArith Reals Bool List Lia Lra Psatz Floats.SpecFloat.
From Verif.Base Require Import Prelude Lemmas.
From Verif.Model Require Import Arith Ieee IeeeFbank.
From Verif.Spec Require Import ValueSpec.
From Verif.Proof Require Import Rne Ieee IeeeLaws IeeeBound IeeeReal.
Import ListNotations.
Open Scope R_scope.

Definition S0 : Z := 2500.
Definition top0 : Z := (2 ^ (1024 + S0))%Z.
Lemma S0_at : S0 = 2500%Z. Proof. reflexivity. Qed.
Lemma top0_64 : (2 ^ (1024 + S0) <= top0)%Z. Proof. unfold top0. lia. Qed.
Lemma top0_32 : (2 ^ (128 + S0) <= top0)%Z. Proof. unfold top0. apply Z.pow_le_mono_r; rewrite ?S0_at; lia. Qed.
Global Opaque top0 S0.

Ltac at0 := unfold emin; rewrite ?S0_at; lia.
Lemma h32 : (- S0 <= emin 24 128)%Z. Proof. at0. Qed.
Lemma h32' : (- S0 <= 2 * emin 24 128)%Z. Proof. at0. Qed.
Lemma h32'' : (- S0 <= emin 24 128 - (128 - 24))%Z. Proof. at0. Qed.
Lemma h64 : (- S0 <= emin 53 1024)%Z. Proof. at0. Qed.
Lemma h64' : (- S0 <= 2 * emin 53 1024)%Z. Proof. at0. Qed.
Lemma h64'' : (- S0 <= emin 53 1024 - (1024 - 53))%Z. Proof. at0. Qed.
Lemma p32 : (1 < 24)%Z. Proof. lia. Qed.
Lemma e32 : (24 < 128)%Z. Proof. lia. Qed.
Lemma p64 : (1 < 53)%Z. Proof. lia. Qed.
Lemma e64 : (53 < 1024)%Z. Proof. lia. Qed.

(** * Bounds on the constants *)

Definition eta : R := / 10 ^ 40.
Definition huge : R := 10 ^ 37.

Lemma pw_neg : forall n, pw (- Z.of_nat n) = / 2 ^ n.
Proof. intros n. rewrite powerRZ_neg', <- pow_powerRZ. reflexivity. Qed.

Lemma u32_at : u 24 = / 16777216.
Proof. unfold u. change (- (24))%Z with (- Z.of_nat 24)%Z. rewrite pw_neg. f_equal. lra. Qed.
Lemma u64_at : u 53 = / 9007199254740992.
Proof. unfold u. change (- (53))%Z with (- Z.of_nat 53)%Z. rewrite pw_neg. f_equal. lra. Qed.
Lemma tiny32_le : tiny 24 128 <= eta.
Proof.
  unfold tiny, eta. change (emin 24 128 - 1)%Z with (- Z.of_nat 150)%Z. rewrite pw_neg. apply Rinv_le_contravar; [lra|].
  rewrite !pow_IZR. apply IZR_le. vm_compute. discriminate.
Qed.
Lemma tiny64_le : tiny 53 1024 <= eta.
Proof.
  unfold tiny, eta. change (emin 53 1024 - 1)%Z with (- Z.of_nat 1075)%Z. rewrite pw_neg. apply Rinv_le_contravar; [lra|].
  rewrite !pow_IZR. apply IZR_le. vm_compute. discriminate.
Qed.
Lemma big32_ge : huge <= big 128.
Proof.
  unfold big, huge. change (128 - 2)%Z with (Z.of_nat 126). rewrite <- pow_powerRZ, !pow_IZR. apply IZR_le. vm_compute. discriminate.
Qed.
Lemma big64_ge : huge <= big 1024.
Proof.
  unfold big, huge. change (1024 - 2)%Z with (Z.of_nat 1022). rewrite <- pow_powerRZ, !pow_IZR. apply IZR_le. vm_compute. discriminate.
Qed.
Lemma eta_pos : 0 < eta. Proof. unfold eta. apply Rinv_0_lt_compat. lra. Qed.

(** * Rounded results *)

Notation val x := (value (fl_val x)).
Notation fin x := (is_finite (fl_val x) = true).

(** [x] is the result of rounding [r]. *)
Definition rounds32 (x : float32) (r : R) : Prop := fin x /\ Rabs (val x - r) <= / 16777216 * Rabs r + eta.
Definition rounds64 (x : float64) (r : R) : Prop := fin x /\ Rabs (val x - r) <= / 9007199254740992 * Rabs r + eta.

Lemma seal32 : forall x r, rounded 24 128 x r -> rounds32 (f32 x) r.
Proof.
  intros x r (V & F & B). unfold rounds32, f32. rewrite (seal_val _ _ _ V). split; [exact F|].
  rewrite u32_at in B. pose proof tiny32_le. lra.
Qed.
Lemma seal64 : forall x r, rounded 53 1024 x r -> rounds64 (f64 x) r.
Proof.
  intros x r (V & F & B). unfold rounds64, f64. rewrite (seal_val _ _ _ V). split; [exact F|].
  rewrite u64_at in B. pose proof tiny64_le. lra.
Qed.

Section Ops.
Variable L : library.
Notation O := (ieee L).

Lemma add32 : forall x y : float32, fin x -> fin y -> Rabs (val x + val y) <= huge -> rounds32 (f_add O x y) (val x + val y).
Proof.
  intros x y Fx Fy B. apply seal32. pose proof big32_ge.
  apply (add_real 24 128 p32 e32 S0 top0 h32 top0_32 h32' h32''); try apply fl_valid; try assumption; lra.
Qed.
Lemma sub32 : forall x y : float32, fin x -> fin y -> Rabs (val x - val y) <= huge -> rounds32 (f_sub O x y) (val x - val y).
Proof.
  intros x y Fx Fy B. apply seal32. pose proof big32_ge.
  apply (sub_real 24 128 p32 e32 S0 top0 h32 top0_32 h32' h32''); try apply fl_valid; try assumption; lra.
Qed.
Lemma mul32 : forall x y : float32, fin x -> fin y -> Rabs (val x * val y) <= huge -> rounds32 (f_mul O x y) (val x * val y).
Proof.
  intros x y Fx Fy B. apply seal32. pose proof big32_ge.
  apply (mul_real 24 128 p32 e32 S0 top0 h32 top0_32 h32' h32''); try apply fl_valid; try assumption; lra.
Qed.
Lemma div32 : forall x y : float32, fin x -> fin y -> val y <> 0 -> Rabs (val x / val y) <= huge -> rounds32 (f_div O x y) (val x / val y).
Proof.
  intros x y Fx Fy N B. apply seal32. pose proof big32_ge.
  apply (div_real 24 128 p32 e32 S0 top0 h32 top0_32 h32' h32''); try apply fl_valid; try assumption; lra.
Qed.

Lemma int32 : forall z, (Z.abs z < 16777216)%Z -> fin (f_int O z) /\ val (f_int O z) = IZR z.
Proof.
  intros z B. destruct (normalize_real 24 128 p32 e32 S0 top0 h32 top0_32 h32' h32'' z 0 false B) as (V & F & E); [unfold emin; lia|lia|].
  change (f_int O z) with (f32 (binary_normalize 24 128 z 0 false)). unfold f32. rewrite (seal_val _ _ _ V). split; [exact F|].
  rewrite E. cbn [powerRZ]. ring.
Qed.

Lemma flt32 : forall x y : float32, fin x -> fin y -> f_lt O x y = true <-> val x < val y.
Proof. intros x y Fx Fy. apply (lt_real 24 128 p32 e32 S0 top0 h32 top0_32 h32' h32''); try apply fl_valid; assumption. Qed.
End Ops.

Lemma add64 : forall x y, valid_binary 53 1024 x = true -> valid_binary 53 1024 y = true -> is_finite x = true -> is_finite y = true ->
  Rabs (value x + value y) <= huge -> rounded 53 1024 (SFadd 53 1024 x y) (value x + value y).
Proof.
  intros x y Vx Vy Fx Fy B. pose proof big64_ge.
  apply (add_real 53 1024 p64 e64 S0 top0 h64 top0_64 h64' h64''); try assumption; lra.
Qed.
Lemma sub64 : forall x y, valid_binary 53 1024 x = true -> valid_binary 53 1024 y = true -> is_finite x = true -> is_finite y = true ->
  Rabs (value x - value y) <= huge -> rounded 53 1024 (SFsub 53 1024 x y) (value x - value y).
Proof.
  intros x y Vx Vy Fx Fy B. pose proof big64_ge.
  apply (sub_real 53 1024 p64 e64 S0 top0 h64 top0_64 h64' h64''); try assumption; lra.
Qed.
Lemma mul64 : forall x y, valid_binary 53 1024 x = true -> valid_binary 53 1024 y = true -> is_finite x = true -> is_finite y = true ->
  Rabs (value x * value y) <= huge -> rounded 53 1024 (SFmul 53 1024 x y) (value x * value y).
Proof.
  intros x y Vx Vy Fx Fy B. pose proof big64_ge.
  apply (mul_real 53 1024 p64 e64 S0 top0 h64 top0_64 h64' h64''); try assumption; lra.
Qed.
Lemma div64 : forall x y, valid_binary 53 1024 x = true -> valid_binary 53 1024 y = true -> is_finite x = true -> is_finite y = true ->
  value y <> 0 -> Rabs (value x / value y) <= huge -> rounded 53 1024 (SFdiv 53 1024 x y) (value x / value y).
Proof.
  intros x y Vx Vy Fx Fy N B. pose proof big64_ge.
  apply (div_real 53 1024 p64 e64 S0 top0 h64 top0_64 h64' h64''); try assumption; lra.
Qed.

Lemma int64 : forall z, (Z.abs z < 16777216)%Z ->
  valid_binary 53 1024 (double z) = true /\ is_finite (double z) = true /\ value (double z) = IZR z.
Proof.
  intros z B. destruct (normalize_real 53 1024 p64 e64 S0 top0 h64 top0_64 h64' h64'' z 0 false) as (V & F & E).
  - apply (Z.lt_trans _ _ _ B). reflexivity.
  - unfold emin. lia.
  - lia.
  - split; [exact V|]. split; [exact F|]. unfold double. rewrite E. cbn [powerRZ]. ring.
Qed.

Lemma S0_wide : (2200 <= S0)%Z. Proof. rewrite S0_at. lia. Qed.

Lemma widen_real : forall x : float32, fin x -> fin (widen x) /\ val (widen x) = val x.
Proof.
  intros x F. assert (F' : fin (widen x)) by (rewrite (widen_finite S0 top0 S0_wide top0_64); exact F).
  split; [exact F'|]. destruct (some_key S0 top0 _ F) as (k & K).
  rewrite (value_key 24 128 p32 e32 S0 top0 h32 h32' h32'' _ k (fl_valid x) F K).
  apply (value_key 53 1024 p64 e64 S0 top0 h64 h64' h64'' _ k (fl_valid (widen x)) F'). rewrite (widen_key S0 top0 S0_wide). exact K.
Qed.

Lemma narrow_real : forall x : float64, fin x -> Rabs (val x) <= huge -> rounds32 (narrow x) (val x).
Proof.
  intros x F B. destruct (some_key S0 top0 _ F) as (k & K). pose proof big32_ge.
  pose proof (value_key 53 1024 p64 e64 S0 top0 h64 h64' h64'' _ k (fl_valid x) F K) as E.
  assert (R : rounded 24 128 (fl_val (narrow x)) (val x)).
  { rewrite E. apply (rounded_by 24 128 p32 e32 S0 top0 h32 top0_32 h32' h32''); [apply fl_valid| |rewrite <- E; lra].
    exact (narrow_key S0 top0 S0_wide x k F K). }
  destruct R as (_ & Fr & Br). split; [exact Fr|]. rewrite u32_at in Br. pose proof tiny32_le. lra.
Qed.

(** * Approximations *)

Lemma rabs_le : forall a b, Rabs a <= b -> - b <= a <= b.
Proof. intros a b H. apply Rabs_def2 in H || unfold Rabs in H; destruct (Rcase_abs a); lra. Qed.
Lemma le_rabs : forall a b, - b <= a <= b -> Rabs a <= b.
Proof. intros a b H. apply Rabs_le. exact H. Qed.

Lemma close_rounds : forall (x : float32) r a e m, rounds32 x r -> Rabs (r - a) <= e -> Rabs r <= m ->
  close x a (e + / 16777216 * m + eta).
Proof.
  intros x r a e m (F & B) E M. split; [exact F|]. replace (val x - a) with ((val x - r) + (r - a)) by ring.
  eapply Rle_trans; [apply Rabs_triang|]. lra.
Qed.

Lemma close_value : forall p q (x : fl p q) a e m, close x a e -> Rabs a <= m -> Rabs (val x) <= m + e.
Proof.
  intros p q x a e m (_ & B) M. replace (val x) with ((val x - a) + a) by ring. eapply Rle_trans; [apply Rabs_triang|]. lra.
Qed.

Lemma close_more : forall p q (x : fl p q) a e e', close x a e -> e <= e' -> close x a e'.
Proof. intros p q x a e e' (F & B) L. split; [exact F|lra]. Qed.

Section Close.
Variable L : library.
Notation O := (ieee L).

Lemma close_int : forall z, (Z.abs z < 16777216)%Z -> close (f_int O z) (IZR z) 0.
Proof. intros z B. destruct (int32 L z B) as (F & E). split; [exact F|]. rewrite E, Rminus_diag_eq, Rabs_R0 by reflexivity. lra. Qed.

Lemma close_add : forall x y a b ea eb m, close x a ea -> close y b eb -> Rabs (a + b) <= m -> m + ea + eb <= huge ->
  close (f_add O x y) (a + b) (ea + eb + / 16777216 * (m + ea + eb) + eta).
Proof.
  intros x y a b ea eb m (Fx & Bx) (Fy & By) M H.
  assert (D : Rabs (val x + val y - (a + b)) <= ea + eb).
  { replace (val x + val y - (a + b)) with ((val x - a) + (val y - b)) by ring. eapply Rle_trans; [apply Rabs_triang|]. lra. }
  assert (R : Rabs (val x + val y) <= m + ea + eb).
  { replace (val x + val y) with ((a + b) + (val x + val y - (a + b))) by ring. eapply Rle_trans; [apply Rabs_triang|]. lra. }
  apply (close_rounds _ (val x + val y)); [apply add32; try assumption; lra|exact D|exact R].
Qed.

Lemma close_sub : forall x y a b ea eb m, close x a ea -> close y b eb -> Rabs (a - b) <= m -> m + ea + eb <= huge ->
  close (f_sub O x y) (a - b) (ea + eb + / 16777216 * (m + ea + eb) + eta).
Proof.
  intros x y a b ea eb m (Fx & Bx) (Fy & By) M H.
  assert (D : Rabs (val x - val y - (a - b)) <= ea + eb).
  { replace (val x - val y - (a - b)) with ((val x - a) + - (val y - b)) by ring. eapply Rle_trans; [apply Rabs_triang|].
    rewrite Rabs_Ropp. lra. }
  assert (R : Rabs (val x - val y) <= m + ea + eb).
  { replace (val x - val y) with ((a - b) + (val x - val y - (a - b))) by ring. eapply Rle_trans; [apply Rabs_triang|]. lra. }
  apply (close_rounds _ (val x - val y)); [apply sub32; try assumption; lra|exact D|exact R].
Qed.

Lemma product_error : forall x y a b ea eb ma mb, Rabs (x - a) <= ea -> Rabs (y - b) <= eb -> Rabs a <= ma -> Rabs b <= mb ->
  Rabs (x * y - a * b) <= ma * eb + mb * ea + ea * eb.
Proof.
  intros x y a b ea eb ma mb Bx By Ma Mb.
  replace (x * y - a * b) with (a * (y - b) + (b * (x - a) + (x - a) * (y - b))) by ring.
  eapply Rle_trans; [apply Rabs_triang|]. rewrite Rabs_mult.
  assert (Rabs (b * (x - a) + (x - a) * (y - b)) <= mb * ea + ea * eb).
  { eapply Rle_trans; [apply Rabs_triang|]. rewrite !Rabs_mult.
    apply Rplus_le_compat; apply Rmult_le_compat; try apply Rabs_pos; assumption. }
  assert (Rabs a * Rabs (y - b) <= ma * eb) by (apply Rmult_le_compat; try apply Rabs_pos; assumption). lra.
Qed.

Lemma close_mul : forall x y a b ea eb ma mb, close x a ea -> close y b eb -> Rabs a <= ma -> Rabs b <= mb ->
  (ma + ea) * (mb + eb) <= huge ->
  close (f_mul O x y) (a * b) (ma * eb + mb * ea + ea * eb + / 16777216 * ((ma + ea) * (mb + eb)) + eta).
Proof.
  intros x y a b ea eb ma mb Cx Cy Ma Mb H.
  pose proof (close_value _ _ _ _ _ _ Cx Ma) as Vx. pose proof (close_value _ _ _ _ _ _ Cy Mb) as Vy.
  destruct Cx as (Fx & Bx), Cy as (Fy & By).
  assert (R : Rabs (val x * val y) <= (ma + ea) * (mb + eb)).
  { rewrite Rabs_mult. apply Rmult_le_compat; try apply Rabs_pos; assumption. }
  apply (close_rounds _ (val x * val y)); [apply mul32; try assumption; lra|now apply product_error|exact R].
Qed.

Lemma close_div_int : forall x n a ea m, (0 < n < 16777216)%Z -> close x a ea -> Rabs a <= m -> m + ea <= huge ->
  close (f_div O x (f_int O n)) (a / IZR n) (ea / IZR n + / 16777216 * ((m + ea) / IZR n) + eta).
Proof.
  intros x n a ea m N C M H. pose proof (close_value _ _ _ _ _ _ C M) as Vx. destruct C as (Fx & Bx).
  destruct (int32 L n ltac:(lia)) as (Fn & En). assert (P : 1 <= IZR n) by (apply IZR_le; lia).
  assert (I : 0 < / IZR n <= 1). { split; [apply Rinv_0_lt_compat; lra|]. rewrite <- Rinv_1. apply Rinv_le_contravar; lra. }
  assert (Ai : Rabs (/ IZR n) = / IZR n) by (apply Rabs_right; lra).
  assert (R : Rabs (val x / val (f_int O n)) <= (m + ea) / IZR n).
  { rewrite En. unfold Rdiv. rewrite Rabs_mult, Ai. apply Rmult_le_compat_r; lra. }
  apply (close_rounds _ (val x / val (f_int O n))).
  - apply div32; try assumption; [lra|]. eapply Rle_trans; [exact R|]. unfold Rdiv.
    pose proof (Rabs_pos (val x)). nra.
  - rewrite En. unfold Rdiv. replace (val x * / IZR n - a * / IZR n) with ((val x - a) * / IZR n) by ring.
    rewrite Rabs_mult, Ai. apply Rmult_le_compat_r; lra.
  - exact R.
Qed.
End Close.
