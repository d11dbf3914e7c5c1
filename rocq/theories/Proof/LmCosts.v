(** Weights of sound language models in single precision. *)
From Coq Require Import ZArith List Lia Bool Floats.SpecFloat.
From Verif.Base Require Import Prelude Lemmas.
From Verif.Model Require Import Arith Vector Fst Decoder Ieee.
From Verif.Spec Require Import FstSpec DecoderSpec LibmSpec PlainSpec LmPlainSpec.
From Verif.Proof Require Import Loop Rne Ieee IeeeLaws IeeeBound FbankBound Fst Lm Decoder LmPlain.
Import ListNotations.
Open Scope Z_scope.

Lemma states_from_length : forall n s, length (states_from s n) = n.
Proof. induction n as [|n IH]; intros s; [reflexivity|]. cbn [states_from length]. now rewrite IH. Qed.

Section Sums.
Variables S top : Z.
Hypothesis HS : 2200 <= S.
Hypothesis Htop : 2 ^ (1024 + S) <= top.
Variable L : library.
Notation K x := (key S top (fl_val x)).
Notation n32 := (near_signed 24 128 S top).
Notation O := (ieee L).
Let P32 : 1 < 24. Proof. lia. Qed.
Let E32 : 24 < 128. Proof. lia. Qed.
Let S32 : - S <= emin 24 128. Proof. unfold emin. lia. Qed.
Let T32 : 2 ^ (128 + S) <= top. Proof. pose proof (big S top HS). lia. Qed.

(** [x] is at most [m * 2 ^ 80]. *)
Definition sum80 (m : Z) (x : float32) : Prop := exists z, K x = Some z /\ Z.abs z <= m * 2 ^ (80 + S).

Lemma whole80 : forall m, 0 <= m < 2 ^ 24 -> n32 (m * 2 ^ (80 + S)) = m * 2 ^ (80 + S) /\ m * 2 ^ (80 + S) < 2 ^ (128 + S).
Proof.
  intros m Hm. assert (U : 0 < 2 ^ (80 + S)) by (apply pow_pos; lia).
  assert (B : m * 2 ^ (80 + S) < 2 ^ (128 + S)).
  { apply Z.lt_trans with (2 ^ 24 * 2 ^ (80 + S)); [apply Zmult_lt_compat_r; lia|].
    rewrite <- Z.pow_add_r by lia. apply Z.pow_lt_mono_r; lia. }
  pose proof (big S top HS) as Bg.
  assert (0 <= m * 2 ^ (80 + S)) by (apply Z.mul_nonneg_nonneg; lia).
  split; [|exact B]. unfold near_signed. destruct (Z.ltb_spec (m * 2 ^ (80 + S)) 0); [lia|]. apply near_multiple; auto; unfold emin; lia.
Qed.

Lemma sum80_finite : forall m x, 0 <= m < 2 ^ 24 -> sum80 m x -> is_finite (fl_val x) = true.
Proof. intros m x Hm (z & Kz & B). destruct (whole80 m Hm) as (_ & T). apply (finite32 S top HS Htop x z Kz). lia. Qed.

Lemma sum80_add : forall m x y, 1 <= m -> m + 1 < 2 ^ 24 -> sum80 m x -> sum80 1 y -> sum80 (m + 1) (f_add O x y).
Proof.
  intros m x y Hm H Hx Hy. pose proof (sum80_finite m x ltac:(lia) Hx) as Fx. pose proof (sum80_finite 1 y ltac:(lia) Hy) as Fy.
  destruct Hx as (a & Ka & Ba). destruct Hy as (b & Kb & Bb).
  destruct (add_le 24 128 P32 E32 S top S32 T32 (fl_val x) (fl_val y) a b ((m + 1) * 2 ^ (80 + S)) (fl_valid x) (fl_valid y) Fx Fy Ka Kb) as (k & Kk & B).
  - rewrite Z.mul_add_distr_r. lia.
  - apply whole80. lia.
  - exists k. split; [|exact B]. rewrite (add32_val S top HS). exact Kk.
Qed.

Lemma sum80_sub : forall m x y, 1 <= m -> m + 1 < 2 ^ 24 -> sum80 m x -> sum80 1 y -> sum80 (m + 1) (f_sub O x y).
Proof.
  intros m x y Hm H Hx Hy. pose proof (sum80_finite m x ltac:(lia) Hx) as Fx. pose proof (sum80_finite 1 y ltac:(lia) Hy) as Fy.
  destruct Hx as (a & Ka & Ba). destruct Hy as (b & Kb & Bb).
  destruct (sub_le 24 128 P32 E32 S top S32 T32 (fl_val x) (fl_val y) a b ((m + 1) * 2 ^ (80 + S)) (fl_valid x) (fl_valid y) Fx Fy Ka Kb) as (k & Kk & B).
  - rewrite Z.mul_add_distr_r. lia.
  - apply whole80. lia.
  - exists k. split; [|exact B]. rewrite (sub32_val S top HS). exact Kk.
Qed.

Lemma sum80_in32 : forall x, in32 (1, 80) x -> sum80 1 x.
Proof. intros x H. destruct (in32_key S top HS Htop 80 x ltac:(lia) H) as (a & Ka & B). exists a. split; [exact Ka|]. rewrite Z.mul_1_l. exact B. Qed.

Lemma sum80_moderate : forall m x, 1 <= m <= 2 ^ 20 -> sum80 m x -> moderate x.
Proof.
  intros m x Hm (a & Ka & B). apply (key_in32 S top HS Htop 100 x a ltac:(lia) Ka). eapply Z.le_trans; [exact B|].
  replace (100 + S) with (20 + (80 + S)) by lia. rewrite (Z.pow_add_r 2 20) by lia. apply Z.mul_le_mono_nonneg_r; [apply Z.pow_nonneg; lia|lia].
Qed.

Variables (g : graph float32) (small : list float32) (t : transducer float32) (bos eos : Z) (table : list (option (arc float32))) (fuel : nat).
Hypothesis Ht : init_bucket (laid_out t) = Ok table.
Hypothesis Hst : exists s, 0 <= s < lenZ (g_states g).
Hypothesis Hs : sound_lm g small t bos eos.
Hypothesis Hm : moderate_lm small t.
Hypothesis Hf : (length (t_states t) <= fuel)%nat.

Lemma few_states : lenZ (t_states t) <= 32766.
Proof. destruct Hst as (s & B). pose proof (sl_few _ _ _ _ _ Hs). pose proof (lenZ_nonneg _ (t_states t)). nia. Qed.

Lemma arcs80 : forall s a, In a (arcs_at t s) -> sum80 1 (weight a).
Proof.
  intros s a J. unfold arcs_at in J. destruct (nth_error (t_states t) (Z.to_nat s)) as [[w l]|] eqn:E; [|destruct J].
  destruct Hm as (_ & H). rewrite Forall_forall in H. specialize (H _ (nth_error_In _ _ E)). rewrite Forall_forall in H.
  apply sum80_in32. exact (H a J).
Qed.

Lemma asked_state : forall k table s x r, lm_get_arc O k (laid_out t) table s x = Ok r -> is_state t s /\ x <> 0.
Proof.
  intros k tb s x r E. destruct k as [|k]; [discriminate E|]. cbn [lm_get_arc] in E.
  apply bind_ok in E. destruct E as (u & Ex & E). apply check_ok in Ex. apply negb_true_iff, Z.eqb_neq in Ex. split; [|exact Ex].
  destruct (Z.eq_dec s 0) as [->|NZ]; [apply (sl_model _ _ _ _ _ Hs)|].
  apply bind_ok in E. destruct E as (e & Ee & E). unfold in_bucket in Ee.
  destruct (Z.eqb_spec s 0) as [Z0|_]; [contradiction|]. cbn [andb] in Ee. injection Ee as <-.
  apply bind_ok in E. destruct E as (own & Eo & _). unfold get_arc in Eo. apply bind_ok in Eo. destruct Eo as (n & En & _).
  unfold count_arcs in En. apply bind_ok in En. destruct En as (i & Ei & _). apply getZ_lt in Ei.
  cbn [laid_out state_idx] in Ei. unfold lenZ in Ei. rewrite map_length, states_from_length in Ei. exact Ei.
Qed.

(** Whatever the language model is asked for, its weights are moderate. *)
Lemma asked : forall s x s' c,
  wm_next (delta_words O fuel (lm_of small t bos eos table)) s x = Some (s', c) -> moderate c.
Proof.
  intros s x s' c E. pose proof few_states as Fs. pose proof (sl_costs _ _ _ _ _ Hs) as Cs.
  cbn [wm_next delta_words] in E. destruct (delta_get_arc O fuel (lm_of small t bos eos table) s x) as [[a|]|] eqn:Ed; try discriminate E.
  injection E as _ <-. unfold delta_get_arc in Ed. apply bind_ok in Ed. destruct Ed as (r & Er & Ed). destruct r as [b|]; [|discriminate Ed].
  apply bind_ok in Ed. destruct Ed as (y & Ey & Ed). injection Ed as <-. cbn [weight].
  cbn [lm_of big_lm big_bucket small_lm] in *. destruct (asked_state _ _ _ _ _ Er) as (Js & NZ).
  apply vget_some in Ey. destruct Ey as (Px & Ey).
  assert (Bx : x < lenZ small).
  { assert (Z.to_nat x < length small)%nat by (apply nth_error_Some; congruence). unfold lenZ. lia. }
  rewrite (table_transparent O t (sl_model _ _ _ _ _ Hs) table) in Er; [|right; split; [exact (sl_table _ _ _ _ _ Hs)|exact Ht]|lia].
  destruct (look_up O t (sl_model _ _ _ _ _ Hs) (sl_cycle _ _ _ _ _ Hs) sum80 32766 Fs arcs80) with (fuel := fuel) (s := s) (x := x)
    as (r & _ & Er' & Hr).
  { intros m u v M1 M2 Hu Hv. apply sum80_add; [exact M1| |exact Hu|exact Hv]. change (2 ^ 24) with 16777216. lia. }
  { exact Hf. } { exact Js. } { exact NZ. }
  rewrite Er in Er'. injection Er' as <-. destruct (Hr b eq_refl) as (m & M & Qm).
  apply (sum80_moderate (m + 1)); [change (2 ^ 20) with 1048576; lia|].
  apply sum80_sub; [lia|change (2 ^ 24) with 16777216; lia|exact Qm|]. apply sum80_in32.
  destruct Hm as (H & _). rewrite Forall_forall in H. apply H. eapply nth_error_In. exact Ey.
Qed.
End Sums.
