(** Costs of paths are finite where the numbers are not too large. *)
From Coq Require Import ZArith List Lia Bool Floats.SpecFloat.
From Verif.Base Require Import Prelude Lemmas.
From Verif.Model Require Import Arith Fst Decoder Ieee.
From Verif.Spec Require Import DecoderSpec TotalSpec LibmSpec PlainSpec.
From Verif.Proof Require Import Loop Rne Ieee IeeeLaws IeeeBound FbankBound.
Import ListNotations.
Open Scope Z_scope.

Section Costs.
Variables S top : Z.
Hypothesis HS : 2200 <= S.
Hypothesis Htop : 2 ^ (1024 + S) <= top.
Variable L : library.
Notation K x := (key S top (fl_val x)).
Notation n32 := (near_signed 24 128 S top).
Notation n64 := (near_signed 53 1024 S top).
Notation O := (ieee L).
Notation X := ieee_wide.
Let P32 : 1 < 24. Proof. lia. Qed.
Let E32 : 24 < 128. Proof. lia. Qed.
Let P64 : 1 < 53. Proof. lia. Qed.
Let E64 : 53 < 1024. Proof. lia. Qed.
Let S32 : - S <= emin 24 128. Proof. unfold emin. lia. Qed.
Let S64 : - S <= emin 53 1024. Proof. unfold emin. lia. Qed.
Let T32 : 2 ^ (128 + S) <= top. Proof. pose proof (big S top HS). lia. Qed.
Let S2 : - S <= 2 * emin 24 128. Proof. unfold emin. lia. Qed.

(** [x] is at most [m * 2 ^ 100]. *)
Definition upto {prec emax} (m : Z) (x : fl prec emax) : Prop := exists z, K x = Some z /\ Z.abs z <= m * 2 ^ (100 + S).

Lemma unit_pos : 0 < 2 ^ (100 + S). Proof. apply pow_pos. lia. Qed.

Lemma multiples : forall m, 0 <= m < 2 ^ 24 ->
  n32 (m * 2 ^ (100 + S)) = m * 2 ^ (100 + S) /\ n64 (m * 2 ^ (100 + S)) = m * 2 ^ (100 + S) /\ m * 2 ^ (100 + S) < 2 ^ (128 + S).
Proof.
  intros m Hm. pose proof unit_pos as U.
  assert (B : m * 2 ^ (100 + S) < 2 ^ (128 + S)).
  { apply Z.lt_trans with (2 ^ 24 * 2 ^ (100 + S)); [apply Zmult_lt_compat_r; lia|].
    rewrite <- Z.pow_add_r by lia. apply Z.pow_lt_mono_r; lia. }
  pose proof (big S top HS) as Bg. assert (2 ^ 24 < 2 ^ 53) by reflexivity.
  assert (0 <= m * 2 ^ (100 + S)) by (apply Z.mul_nonneg_nonneg; lia).
  repeat split; try exact B; unfold near_signed; (destruct (Z.ltb_spec (m * 2 ^ (100 + S)) 0); [lia|]); apply near_multiple; auto; unfold emin; lia.
Qed.

Lemma upto_finite : forall m (x : float32), 0 <= m < 2 ^ 24 -> upto m x -> is_finite (fl_val x) = true.
Proof. intros m x Hm (z & Kz & B). destruct (multiples m Hm) as (_ & _ & T). apply (finite32 S top HS Htop x z Kz). lia. Qed.

Lemma upto_finite64 : forall m (x : float64), 0 <= m < 2 ^ 24 -> upto m x -> is_finite (fl_val x) = true.
Proof.
  intros m x Hm (z & Kz & B). destruct (multiples m Hm) as (_ & _ & T). pose proof (big S top HS). apply (finite64 S top Htop x z Kz). lia.
Qed.

Lemma upto_add : forall m n (x y : float32), 0 <= m -> 0 <= n -> m + n < 2 ^ 24 -> upto m x -> upto n y -> upto (m + n) (f_add O x y).
Proof.
  intros m n x y Hm Hn H Hx Hy. pose proof (upto_finite m x ltac:(lia) Hx) as Fx. pose proof (upto_finite n y ltac:(lia) Hy) as Fy.
  destruct Hx as (a & Ka & Ba). destruct Hy as (b & Kb & Bb).
  destruct (add_le 24 128 P32 E32 S top S32 T32 (fl_val x) (fl_val y) a b ((m + n) * 2 ^ (100 + S)) (fl_valid x) (fl_valid y) Fx Fy Ka Kb) as (k & Kk & B).
  - rewrite Z.mul_add_distr_r. lia.
  - apply multiples. lia.
  - exists k. split; [|exact B]. rewrite (add32_val S top HS). exact Kk.
Qed.

Lemma upto_add64 : forall m n (x y : float64), 0 <= m -> 0 <= n -> m + n < 2 ^ 24 -> upto m x -> upto n y -> upto (m + n) (x_add X x y).
Proof.
  intros m n x y Hm Hn H Hx Hy. pose proof (upto_finite64 m x ltac:(lia) Hx) as Fx. pose proof (upto_finite64 n y ltac:(lia) Hy) as Fy.
  destruct Hx as (a & Ka & Ba). destruct Hy as (b & Kb & Bb).
  destruct (add_le 53 1024 P64 E64 S top S64 Htop (fl_val x) (fl_val y) a b ((m + n) * 2 ^ (100 + S)) (fl_valid x) (fl_valid y) Fx Fy Ka Kb) as (k & Kk & B).
  - rewrite Z.mul_add_distr_r. lia.
  - apply multiples. lia.
  - exists k. split; [|exact B]. cbn [x_add ieee_wide]. rewrite (add64_val S top HS). exact Kk.
Qed.

Lemma upto_wide : forall m (x : float32), upto m x -> upto m (x_wide X x).
Proof. intros m x (z & Kz & B). exists z. split; [|exact B]. rewrite x_wide_key; assumption. Qed.

Lemma upto_narrow : forall m (x : float64), 0 <= m < 2 ^ 24 -> upto m x -> upto m (x_narrow X x).
Proof.
  intros m x Hm Hx. pose proof (upto_finite64 m x Hm Hx) as Fx. destruct Hx as (z & Kz & B). exists (n32 z). split.
  - now apply x_narrow_key.
  - apply (ns_abs 24 128 P32 E32 S top S32 T32); [exact B|now apply multiples].
Qed.

Lemma upto_zero : forall m, 0 <= m -> upto m (f_zero O).
Proof. intros m Hm. exists 0. split; [reflexivity|]. pose proof unit_pos. cbn [Z.abs]. apply Z.mul_nonneg_nonneg; lia. Qed.

Lemma upto_moderate : forall x, moderate x -> upto 1 x.
Proof. intros x H. destruct (in32_key S top HS Htop 100 x ltac:(lia) H) as (a & Ka & B). exists a. split; [exact Ka|]. rewrite Z.mul_1_l. exact B. Qed.

Lemma upto_neg : forall m x, upto m x -> upto m (x_neg X x).
Proof.
  intros m x (z & Kz & B). cbn [x_neg ieee_wide]. unfold upto.
  assert (E : fl_val (f32 (SFopp (fl_val x))) = SFopp (fl_val x)).
  { apply seal_val. pose proof (fl_valid x) as V. destruct (fl_val x); exact V. }
  rewrite E. destruct (fl_val x) as [s|s| |s m' e]; try discriminate Kz.
  - exists z. split; [exact Kz|exact B].
  - exists (- z). split; [|now rewrite Z.abs_opp]. cbn [SFopp key] in *. apply some_inj in Kz. subst z. destruct s; cbn [negb opp_if]; f_equal; ring.
  - exists (- z). split; [|now rewrite Z.abs_opp]. cbn [SFopp key] in *. apply some_inj in Kz. subst z. destruct s; cbn [negb opp_if]; f_equal; ring.
Qed.

Lemma upto_scaled : forall s x, in32 (1, 0) s -> moderate x -> upto 1 (f_mul O s x).
Proof.
  intros s x Hs Hx. pose proof (upto_finite 1 x ltac:(lia) (upto_moderate x Hx)) as Fx.
  destruct (upto_moderate x Hx) as (b & Kb & Bb). destruct (in32_key S top HS Htop 0 s ltac:(lia) Hs) as (a & Ka & Ba).
  assert (Fs : is_finite (fl_val s) = true).
  { apply (finite32 S top HS Htop s a Ka). assert (2 ^ (0 + S) < 2 ^ (128 + S)) by (apply Z.pow_lt_mono_r; lia). lia. }
  destruct (mul_le 24 128 P32 E32 S top S32 T32 (fl_val s) (fl_val x) a b (1 * 2 ^ (100 + S)) S2 (fl_valid s) (fl_valid x) Fs Fx Ka Kb) as (k & Kk & B).
  - pose proof unit_pos. lia.
  - rewrite (Z.mul_comm (1 * _)). apply Z.mul_le_mono_nonneg; try lia. rewrite Z.add_0_l in Ba. exact Ba.
  - apply multiples. lia.
  - exists k. split; [|exact B]. rewrite (mul32_val S top HS Htop). exact Kk.
Qed.

Lemma upto_after : forall m c w ac lw, 0 <= m -> m + 3 < 2 ^ 24 -> upto m c -> upto 1 w -> upto 1 ac -> (forall x, lw = Some x -> upto 1 x) ->
  upto (m + 3) (x_narrow X (cost_after O X c w ac lw)).
Proof.
  intros m c w ac lw Hm H Hc Hw Ha Hl. apply upto_narrow; [lia|]. unfold cost_after.
  assert (B : upto (m + 1 + 1) (f_add O (f_add O c w) ac)).
  { apply upto_add; try lia; [|exact Ha]. apply upto_add; try lia; assumption. }
  destruct lw as [x|].
  - replace (m + 3) with (m + 1 + 1 + 1) by lia. apply upto_add64; try lia; apply upto_wide; auto.
  - apply upto_wide. destruct B as (z & Kz & B). exists z. split; [exact Kz|]. pose proof unit_pos. nia.
Qed.

Section Paths.
Context {C : Type}.
Variables (cfg : config float32 C) (wm : option (word_model float32)) (k : Z) (frames : list (list float32)).
Hypothesis H : moderate_costs cfg wm k frames.
Notation path := (path O X (c_graph cfg) (c_pdf cfg) (c_scale cfg) wm).

Lemma k_nonneg : 0 <= k.
Proof. apply (mc_silence _ _ _ _ H 0 0 0). constructor. Qed.

Lemma acoustic_upto : forall logp a ac, Forall moderate logp -> acoustic O X (c_pdf cfg) (c_scale cfg) logp a ac -> upto 1 ac.
Proof.
  intros logp a ac Hr (p & x & _ & _ & _ & E & ->). apply upto_neg. apply upto_scaled; [exact (mc_scale _ _ _ _ H)|].
  rewrite Forall_forall in Hr. apply Hr. now apply nth_error_In in E.
Qed.

Lemma lm_upto : forall l x l' lw, lm_after O wm l x = (l', lw) -> forall c, lw = Some c -> upto 1 c.
Proof.
  intros l x l' lw E c ->. unfold lm_after in E. destruct wm as [w|] eqn:Ew; [|discriminate E].
  destruct (x =? 0); [injection E as _ <-; apply upto_zero; lia|].
  destruct (wm_next w l x) as [[l2 y]|] eqn:En; [|injection E as _ <-; apply upto_zero; lia].
  injection E as _ <-. apply upto_moderate. exact (mc_words _ _ _ _ H w l x l2 y eq_refl En).
Qed.

Lemma path_upto : forall fs s c ws, path fs s c ws -> Forall (Forall moderate) fs -> lenZ fs <= lenZ frames ->
  exists n t, silent (c_graph cfg) t n (Datatypes.fst s) /\ 0 <= n /\ upto (3 * (lenZ fs * (k + 1) + n)) c /\ lenZ ws <= lenZ fs * (k + 1) + n.
Proof.
  pose proof k_nonneg as Kp. pose proof (mc_length _ _ _ _ H) as HL.
  intros fs s c ws P. induction P as [|fs s l c ws a l' lw P IH Af Z0 El|fs logp s l c ws a l' lw ac P IH Af NZ Ac El]; intros Hr Hn.
  - exists 0, (g_start (c_graph cfg)). split; [constructor|]. split; [lia|]. split; [apply upto_zero|]; unfold lenZ; cbn; lia.
  - destruct (IH Hr Hn) as (n & t & Hs & Np & Hc & Hw). exists (n + 1), t.
    assert (Hs' : silent (c_graph cfg) t (n + 1) (next_state a)) by (econstructor; eauto).
    pose proof (mc_silence _ _ _ _ H _ _ _ Hs') as Bk. pose proof (lenZ_nonneg _ fs).
    assert (B : lenZ fs * (k + 1) + (n + 1) <= 4194304) by nia.
    assert (Q : 0 <= lenZ fs * (k + 1)) by (apply Z.mul_nonneg_nonneg; lia).
    split; [exact Hs'|]. split; [lia|]. split.
    + replace (3 * (lenZ fs * (k + 1) + (n + 1))) with (3 * (lenZ fs * (k + 1) + n) + 3) by lia.
      apply upto_after; [lia|change (2 ^ 24) with 16777216; lia|exact Hc| | |].
      * apply upto_moderate. exact (mc_arcs _ _ _ _ H _ _ Af).
      * apply upto_zero. lia.
      * exact (lm_upto _ _ _ _ El).
    + unfold add_word. destruct (_ =? 0); [lia|]. rewrite lenZ_app. change (lenZ [output_label a]) with 1. lia.
  - inversion Hr as [|? ? Hr1 Hr2]; subst. assert (Lc : lenZ (logp :: fs) = lenZ fs + 1) by (unfold lenZ; cbn [length]; lia). rewrite Lc in *. destruct (IH Hr2 ltac:(lia)) as (n & t & Hs & Np & Hc & Hw).
    exists 0, (next_state a). pose proof (mc_silence _ _ _ _ H _ _ _ Hs) as Bk. pose proof (lenZ_nonneg _ fs).
    assert (B : lenZ fs * (k + 1) + n + 1 <= (lenZ fs + 1) * (k + 1) + 0) by nia.
    assert (B2 : (lenZ fs + 1) * (k + 1) <= 4194304) by nia.
    assert (Q : 0 <= lenZ fs * (k + 1)) by (apply Z.mul_nonneg_nonneg; lia).
    split; [constructor|]. split; [lia|]. split.
    + assert (G : upto (3 * (lenZ fs * (k + 1) + n) + 3) (x_narrow X (cost_after O X c (weight a) ac lw))).
      { apply upto_after; [lia|change (2 ^ 24) with 16777216; lia|exact Hc| | |].
        * apply upto_moderate. exact (mc_arcs _ _ _ _ H _ _ Af).
        * exact (acoustic_upto logp a ac Hr1 Ac).
        * exact (lm_upto _ _ _ _ El). }
      destruct G as (z & Kz & Bz). exists z. split; [exact Kz|]. eapply Z.le_trans; [exact Bz|].
      apply Z.mul_le_mono_nonneg_r; [pose proof unit_pos; lia|lia].
    + unfold add_word. destruct (_ =? 0); [lia|]. rewrite lenZ_app. change (lenZ [output_label a]) with 1. lia.
Qed.

Lemma earlier_moderate : forall later fs, rev frames = later ++ fs -> Forall (Forall moderate) (later ++ fs) /\ lenZ later + lenZ fs = lenZ frames.
Proof.
  intros later fs E. split.
  - rewrite <- E. apply Forall_rev. exact (mc_rows _ _ _ _ H).
  - rewrite <- lenZ_app, <- E. unfold lenZ. now rewrite rev_length.
Qed.

Lemma moderate_finite_at : finite_costs O X cfg wm frames.
Proof.
  pose proof k_nonneg as Kp. pose proof (mc_length _ _ _ _ H) as HL.
  intros later fs s c ws E P. destruct (earlier_moderate later fs E) as (Hr & Hn). apply Forall_app in Hr. destruct Hr as (Hr1 & Hr2).
  pose proof (lenZ_nonneg _ later). pose proof (lenZ_nonneg _ fs).
  destruct (path_upto fs s c ws P Hr2 ltac:(lia)) as (n & t & Hs & Np & Hc & _). pose proof (mc_silence _ _ _ _ H _ _ _ Hs) as Bk.
  assert (B : 0 <= lenZ fs * (k + 1) + n <= 4194304) by nia.
  split; [cbn [f_finite ieee]; apply (upto_finite _ c) with (2 := Hc); lia|].
  intros later' logp a ac El Af NZ Ac. cbn [f_finite ieee].
  apply (upto_finite (3 * (lenZ fs * (k + 1) + n) + 1 + 1)); [lia|].
  apply upto_add; try lia.
  - apply upto_add; try lia; [exact Hc|]. apply upto_moderate. exact (mc_arcs _ _ _ _ H _ _ Af).
  - apply (acoustic_upto logp a ac); [|exact Ac]. subst later. apply Forall_app in Hr1. destruct Hr1 as (_ & Hl). now inversion Hl.
Qed.

Lemma moderate_brief_at : (lenZ frames + 1) * (k + 1) < 100000 -> brief O X cfg wm frames.
Proof.
  intros HB. pose proof k_nonneg as Kp.
  intros later fs s c ws E P. destruct (earlier_moderate later fs E) as (Hr & Hn). apply Forall_app in Hr. destruct Hr as (Hr1 & Hr2).
  pose proof (lenZ_nonneg _ later). pose proof (lenZ_nonneg _ fs).
  destruct (path_upto fs s c ws P Hr2 ltac:(lia)) as (n & t & Hs & Np & _ & Hw). pose proof (mc_silence _ _ _ _ H _ _ _ Hs) as Bk. nia.
Qed.
End Paths.
End Costs.

Section Ends.
Variables (L : library) (C : Type) (cfg : config float32 C) (wm : option (word_model float32)) (k : Z) (frames : list (list float32)).
Hypothesis H : moderate_costs cfg wm k frames.

Lemma moderate_finite : finite_costs (ieee L) ieee_wide cfg wm frames.
Proof. exact (moderate_finite_at 2200 (2 ^ (1024 + 2200)) (Z.le_refl _) (Z.le_refl _) L cfg wm k frames H). Qed.

Lemma moderate_brief : (lenZ frames + 1) * (k + 1) < 100000 -> brief (ieee L) ieee_wide cfg wm frames.
Proof. exact (moderate_brief_at 2200 (2 ^ (1024 + 2200)) (Z.le_refl _) (Z.le_refl _) L cfg wm k frames H). Qed.
End Ends.
