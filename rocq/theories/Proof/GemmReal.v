(** Products of quantised matrices over the real numbers. *)
From Coq Require Import ZArith Reals List Bool Lia Lra.
From Verif.Base Require Import Prelude Lemmas.
From Verif.Model Require Import Arith Vector Matrix Quantize Exact Gemm.
From Verif.Spec Require Import MatrixSpec QuantizeSpec GemmSpec.
From Verif.Proof Require Import Loop Matrix Quantize Gemm.
Import ListNotations.
Open Scope R_scope.

Lemma sum_IZR f : forall n, IZR (sum_of Z.add f 0%Z n) = sum_of Rplus (fun k => IZR (f k)) 0 n.
Proof. induction n as [|n IH]; cbn [sum_of]; [reflexivity|]. now rewrite plus_IZR, IH. Qed.

Lemma sum_close (f g e : Z -> R) : forall n, (forall k, (0 <= k < Z.of_nat n)%Z -> Rabs (f k - g k) <= e k) ->
  Rabs (sum_of Rplus f 0 n - sum_of Rplus g 0 n) <= sum_of Rplus e 0 n.
Proof.
  induction n as [|n IH]; intros H; cbn [sum_of]; [rewrite Rminus_0_r, Rabs_R0; lra|].
  specialize (IH ltac:(intros k K; apply H; lia)). specialize (H (Z.of_nat n) ltac:(lia)).
  replace (sum_of Rplus f 0 n + f (Z.of_nat n) - (sum_of Rplus g 0 n + g (Z.of_nat n)))
    with ((sum_of Rplus f 0 n - sum_of Rplus g 0 n) + (f (Z.of_nat n) - g (Z.of_nat n))) by lra.
  eapply Rle_trans; [apply Rabs_triang|]. lra.
Qed.

Lemma sum_scale (f : Z -> R) s : forall n, sum_of Rplus f 0 n * s = sum_of Rplus (fun k => f k * s) 0 n.
Proof. induction n as [|n IH]; cbn [sum_of]; [lra|]. rewrite <- IH. lra. Qed.

Lemma term_close a b sa sb x y : 0 < sa -> 0 < sb -> Rabs (a - sa * x) <= sa / 2 -> Rabs (b - sb * y) <= sb / 2 ->
  Rabs (x * y * (sa * sb) - a * b) <= (Rabs a * sb + Rabs b * sa) / 2 + sa * sb / 4.
Proof.
  intros Pa Pb A B. set (d := sa * x - a) in *. set (e := sb * y - b) in *.
  assert (A' : Rabs d <= sa / 2) by (unfold d; rewrite Rabs_minus_sym; exact A).
  assert (B' : Rabs e <= sb / 2) by (unfold e; rewrite Rabs_minus_sym; exact B).
  replace (x * y * (sa * sb) - a * b) with (a * e + (b * d + d * e)) by (unfold d, e; ring).
  pose proof (Rabs_triang (a * e) (b * d + d * e)). pose proof (Rabs_triang (b * d) (d * e)).
  rewrite !Rabs_mult in *. pose proof (Rabs_pos a). pose proof (Rabs_pos b). pose proof (Rabs_pos d). pose proof (Rabs_pos e).
  assert (Rabs a * Rabs e <= Rabs a * (sb / 2)) by (apply Rmult_le_compat_l; assumption).
  assert (Rabs b * Rabs d <= Rabs b * (sa / 2)) by (apply Rmult_le_compat_l; assumption).
  assert (Rabs d * Rabs e <= sa / 2 * (sb / 2)) by (apply Rmult_le_compat; assumption).
  lra.
Qed.

(** The zero point of elements from [lo] to [hi]. *)
Lemma zero_bound z lo hi M : (0 <= M)%Z -> lo <= hi -> 0 < step lo hi ->
  Rabs lo <= IZR M * (hi - lo) -> Rabs (IZR z + lo / step lo hi) <= / 2 -> (Z.abs z <= 255 * M)%Z.
Proof.
  intros P LE S L Zb. assert (T : hi - lo <= 255 * step lo hi).
  { unfold step. pose proof (Rmax_l hi float_min). lra. }
  assert (Q : Rabs (lo / step lo hi) <= IZR (255 * M)).
  { unfold Rdiv. rewrite Rabs_mult, Rabs_inv, (Rabs_right (step lo hi)) by lra.
    apply (Rmult_le_reg_r (step lo hi)); [exact S|]. rewrite Rmult_assoc, Rinv_l by lra. rewrite mult_IZR.
    apply IZR_le in P. eapply Rle_trans; [rewrite Rmult_1_r; exact L|].
    assert (IZR M * (hi - lo) <= IZR M * (255 * step lo hi)) by (apply Rmult_le_compat_l; lra). lra. }
  apply half_le. rewrite abs_IZR. replace (IZR z) with ((IZR z + lo / step lo hi) + - (lo / step lo hi)) by lra.
  eapply Rle_trans; [apply Rabs_triang|]. rewrite Rabs_Ropp. lra.
Qed.

Lemma near_spread b v lo hi M : extremes b v lo hi -> (0 <= 255 * M <= 2 ^ 31)%Z -> Rabs lo <= IZR M * (hi - lo) -> spread b v.
Proof.
  intros (Ol & Oh & A) HM L. exists lo, hi. split; [exact Ol|]. split; [exact Oh|].
  assert (D : 0 <= hi - lo) by (specialize (A lo Ol); lra).
  destruct HM as (H0 & H1). apply IZR_le in H1. rewrite mult_IZR in H1.
  pose proof (Rle_abs lo). assert (255 * (IZR M * (hi - lo)) <= IZR (2 ^ 31) * (hi - lo)).
  { rewrite <- Rmult_assoc. apply Rmult_le_compat_r; assumption. }
  lra.
Qed.

Lemma quantised_product junk scratch a va b vb da db c vc fa fb la ha lb hb Ma Mb :
  inside va (lenZ a) -> inside vb (lenZ b) -> inside vc (lenZ c) -> multiplies va vb vc ->
  receives va da -> receives vb db ->
  (forall x, occurs a va x -> x <= float_max) -> (forall x, occurs b vb x -> x <= float_max) ->
  extremes a va la ha -> extremes b vb lb hb ->
  Rabs la <= IZR Ma * (ha - la) -> Rabs lb <= IZR Mb * (hb - lb) -> (0 <= Ma)%Z -> (0 <= Mb)%Z ->
  (v_cols va * (255 + 255 * Ma) * (255 + 255 * Mb) <= int_max)%Z ->
  (forall i k, index va i k -> mget a va i k = Ok (fa i k)) ->
  (forall k j, index vb k j -> mget b vb k j = Ok (fb k j)) ->
  exists ma pa mb pb qa qb s c1,
    quantize rops rwide rround junk a va da = Ok (ma, pa) /\ quantize rops rwide rround junk b vb db = Ok (mb, pb) /\
    m_block ma = Some qa /\ m_block mb = Some qb /\
    mat_mat_u8 rops junk scratch qa (m_view ma) pa qb (m_view mb) pb c vc = Ok (s, c1) /\ only vc c c1 /\
    forall i j, index vc i j -> exists x, mget c1 vc i j = Ok x /\
      Rabs (x - exact_product fa fb (Z.to_nat (v_cols va)) i j) <=
      allowed_error fa fb (step la ha) (step lb hb) (Z.to_nat (v_cols va)) i j.
Proof.
  intros Ia Ib Ic (Sa & Sb & Sc & D1 & D2 & D3 & Na & Nb & Nc) Ra Rb Ua Ub Xa Xb La Lb Pa Pb Bd Fa Fb.
  assert (Ca : (0 < v_cols va)%Z) by (unfold inside in Ia; lia).
  assert (Wa : (255 * Ma <= 2 ^ 31)%Z) by (change (2 ^ 31)%Z with 2147483648%Z; unfold int_max in Bd; clear - Ca Pa Pb Bd; nia).
  assert (Wb : (255 * Mb <= 2 ^ 31)%Z) by (change (2 ^ 31)%Z with 2147483648%Z; unfold int_max in Bd; clear - Ca Pa Pb Bd; nia).
  destruct (quantize_ok junk a va da Ia Sa Ra Ua (near_spread a va la ha Ma Xa ltac:(lia) La))
    as (ma & pa & Ea & (qa & Ba & Ja) & Ra1 & Ca1 & Sa1 & Qa & Za & Va).
  destruct (quantize_ok junk b vb db Ib Sb Rb Ub (near_spread b vb lb hb Mb Xb ltac:(lia) Lb))
    as (mb & pb & Eb & (qb & Bb & Jb) & Rb1 & Cb1 & Sb1 & Qb & Zb & Vb).
  destruct (Za la ha Xa) as (Ta & Oa). destruct (Zb lb hb Xb) as (Tb & Ob).
  assert (Ha : p_scale pa = step la ha) by (unfold step; lra).
  assert (Hb : p_scale pb = step lb hb) by (unfold step; lra).
  rewrite Ha in *. rewrite Hb in *.
  assert (Za1 : (Z.abs (p_zero pa) <= 255 * Ma)%Z).
  { apply (zero_bound _ la ha); try assumption. destruct Xa as (Ol & Oh & A). apply (A la Ol). }
  assert (Zb1 : (Z.abs (p_zero pb) <= 255 * Mb)%Z).
  { apply (zero_bound _ lb hb); try assumption. destruct Xb as (Ol & Oh & A). apply (A lb Ol). }
  pose (ga i k := match mget qa (m_view ma) i k with Ok q => q | Fault _ => 0%Z end).
  pose (gb i k := match mget qb (m_view mb) i k with Ok q => q | Fault _ => 0%Z end).
  assert (Ga : forall i k, index va i k -> mget qa (m_view ma) i k = Ok (ga i k) /\ (0 <= ga i k <= 255)%Z /\
    Rabs (fa i k - step la ha * IZR (ga i k - p_zero pa)) <= step la ha / 2).
  { intros i k I. destruct (Va i k _ I (Fa i k I)) as (q & E & B & C). unfold element in E. rewrite Ba in E.
    unfold ga. rewrite E. auto. }
  assert (Gb : forall i k, index vb i k -> mget qb (m_view mb) i k = Ok (gb i k) /\ (0 <= gb i k <= 255)%Z /\
    Rabs (fb i k - step lb hb * IZR (gb i k - p_zero pb)) <= step lb hb / 2).
  { intros i k I. destruct (Vb i k _ I (Fb i k I)) as (q & E & B & C). unfold element in E. rewrite Bb in E.
    unfold gb. rewrite E. auto. }
  assert (Wd : forall v w i k, v_rows w = v_rows v -> v_cols w = v_cols v -> index w i k -> index v i k).
  { unfold index. intros v w i k -> ->. auto. }
  destruct (product_u8_ok rops junk scratch qa (m_view ma) pa qb (m_view mb) pb c vc ga gb) as (s & c1 & E & On & V);
    try assumption; try (rewrite ?Ra1, ?Ca1, ?Sa1, ?Rb1, ?Cb1, ?Sb1; assumption); try (rewrite ?Ra1, ?Ca1, ?Sa1, ?Rb1, ?Cb1, ?Sb1; reflexivity).
  - intros r k I. destruct (Ga r k) as (E & B & _); [now apply (Wd va (m_view ma))|]. auto.
  - intros r k I. destruct (Gb r k) as (E & B & _); [now apply (Wd vb (m_view mb))|]. auto.
  - rewrite Ca1. unfold int_max in *. clear - Bd Za1 Zb1 Ca. 
    set (x := Z.abs (p_zero pa)) in *. set (y := Z.abs (p_zero pb)) in *.
    assert (0 <= x)%Z by (unfold x; lia). assert (0 <= y)%Z by (unfold y; lia). clearbody x y.
    eapply Z.le_trans; [|exact Bd]. apply Z.mul_le_mono_nonneg; [|apply Z.mul_le_mono_nonneg_l; lia| |]; nia.
  - exists ma, pa, mb, pb, qa, qb, s, c1. do 6 (split; [assumption|]).
    intros i j I. eexists. split; [exact (V i j I)|]. rewrite Ca1, Ha, Hb. cbn [rops f_mul f_int].
    rewrite sum_IZR, sum_scale. unfold exact_product, allowed_error. apply sum_close. intros k K.
    rewrite mult_IZR. unfold index in I. unfold inside in Ib. destruct (Ga i k) as (_ & _ & A1); [unfold index; lia|].
    destruct (Gb k j) as (_ & _ & B1); [unfold index; lia|].
    apply term_close; assumption.
Qed.
