(** Floating-point operations as operations on reals with a rounding error. *)
From Coq Require Import ZArith Reals Bool List Lia Lra Floats.SpecFloat.
From Verif.Base Require Import Prelude Lemmas.
From Verif.Model Require Import Arith Ieee.
From Verif.Spec Require Import ValueSpec.
From Verif.Proof Require Import Rne Ieee IeeeLaws IeeeBound.
Import ListNotations.
Open Scope Z_scope.

(** * Powers of two *)

Notation pw := (powerRZ 2).

Lemma pw_pos : forall e, (0 < pw e)%R.
Proof. intros e. apply powerRZ_lt. lra. Qed.
Lemma pw_add : forall a b, pw (a + b) = (pw a * pw b)%R.
Proof. intros a b. apply powerRZ_add. lra. Qed.
Lemma pw_IZR : forall n, 0 <= n -> IZR (2 ^ n) = pw n.
Proof.
  intros n H. rewrite <- (Z2Nat.id n H). generalize (Z.to_nat n). clear. intros n.
  rewrite <- pow_powerRZ. rewrite pow_IZR. reflexivity.
Qed.
Lemma pw_inv : forall e, (pw e * pw (- e) = 1)%R.
Proof. intros e. rewrite <- pw_add, Z.add_opp_diag_r. reflexivity. Qed.
Lemma pw_le : forall a b, a <= b -> (pw a <= pw b)%R.
Proof.
  intros a b H. replace b with (a + (b - a)) by lia. rewrite pw_add.
  assert (1 <= pw (b - a))%R.
  { rewrite <- pw_IZR by lia. apply IZR_le. pose proof (pow_pos (b - a) ltac:(lia)). lia. }
  pose proof (pw_pos a). nra.
Qed.

Section Format.
Variables prec emax : Z.
Hypothesis Hprec : 1 < prec.
Hypothesis Hemax : prec < emax.
Notation emin := (SpecFloat.emin prec emax).
Variables S top : Z.
Hypothesis HS : - S <= emin.
Hypothesis Htop : 2 ^ (emax + S) <= top.
Hypothesis S2 : - S <= 2 * emin.
Hypothesis S3 : - S <= emin - (emax - prec).
Let Spos : 0 < S. Proof. unfold SpecFloat.emin in *. lia. Qed.

(** The relative and the absolute part of the error. *)
Definition u : R := pw (- prec).
Definition tiny : R := pw (emin - 1).
Definition big : R := pw (emax - 2).

Notation V := (valid_binary prec emax).
Notation K := (key S top).

Lemma value_key : forall x k, V x = true -> is_finite x = true -> K x = Some k -> value x = (IZR k * pw (- S))%R.
Proof.
  intros [s|s| |s m e] k Hv Hf Hk; try discriminate; cbn [key] in Hk; apply some_inj in Hk; subst k; cbn [value].
  - lra.
  - destruct (valid_facts prec emax Hprec S HS s m e Hv) as (He & _).
    replace (IZR (opp_if s (Z.pos m * 2 ^ (e + S)))) with ((if s then -1 else 1) * IZR (Z.pos m) * IZR (2 ^ (e + S)))%R.
    + rewrite pw_IZR by (unfold SpecFloat.emin in *; lia). rewrite pw_add.
      rewrite <- (Rmult_1_r (_ * pw e)), <- (pw_inv S). ring.
    + destruct s; cbn [opp_if]; rewrite ?opp_IZR, mult_IZR; ring.
Qed.

Lemma some_key : forall x, is_finite x = true -> exists k, K x = Some k.
Proof. intros [s|s| |s m e] H; try discriminate; cbn [key]; eauto. Qed.

(** The error of rounding [n / m]. *)
Lemma near_absolute : forall n m, 0 <= n -> 0 < m -> near prec emax S top n m < 2 ^ (emax + S) ->
  2 ^ prec * Z.abs (near prec emax S top n m * m - n) <= n + m * 2 ^ (emin + S + prec - 1).
Proof.
  intros n m N M. unfold near. set (k := Z.max _ _). pose proof (pow_pos k ltac:(unfold k; lia)) as Pk.
  destruct (Z.leb_spec (2 ^ (emax + S)) (rne n (m * 2 ^ k) * 2 ^ k)); [lia|]. intros _.
  pose proof (rne_near n (m * 2 ^ k) ltac:(nia)) as E.
  replace (rne n (m * 2 ^ k) * (m * 2 ^ k)) with (rne n (m * 2 ^ k) * 2 ^ k * m) in E by ring.
  set (v := rne n (m * 2 ^ k) * 2 ^ k * m) in *.
  assert (A : 2 * Z.abs (v - n) <= m * 2 ^ k) by lia.
  assert (P : 2 ^ prec = 2 * 2 ^ (prec - 1)) by (replace prec with (1 + (prec - 1)) at 1 by lia; rewrite pow_add by lia; reflexivity).
  pose proof (pow_pos (prec - 1) ltac:(lia)) as P1.
  assert (Q : 2 ^ (prec - 1) * (m * 2 ^ k) <= n + m * 2 ^ (emin + S + prec - 1)).
  { unfold k. destruct (Z.max_spec (Zdigits2 (n / m) - prec) (emin + S)) as [(_ & ->)|(L & ->)].
    - replace (emin + S + prec - 1) with (prec - 1 + (emin + S)) by lia. rewrite (pow_add (prec - 1)) by lia.
      replace (2 ^ (prec - 1) * (m * 2 ^ (emin + S))) with (m * (2 ^ (prec - 1) * 2 ^ (emin + S))) by ring. lia.
    - assert (0 < n / m).
      { destruct (Z_lt_le_dec 0 (n / m)); [assumption|]. pose proof (Z.div_pos n m N M). replace (n / m) with 0 in L by lia. cbn [Zdigits2] in L. lia. }
      pose proof (digits_bounds (n / m) ltac:(lia)) as (B & _).
      replace (2 ^ (prec - 1) * (m * 2 ^ (Zdigits2 (n / m) - prec))) with (m * (2 ^ (prec - 1) * 2 ^ (Zdigits2 (n / m) - prec))) by ring.
      rewrite <- pow_add by lia. replace (prec - 1 + (Zdigits2 (n / m) - prec)) with (Zdigits2 (n / m) - 1) by lia.
      pose proof (Z.div_mod n m ltac:(lia)). pose proof (Z.mod_pos_bound n m M).
      pose proof (pow_pos (emin + S + prec - 1) ltac:(lia)). nia. }
  rewrite P. nia.
Qed.

(** The same for a rounded number [r], a multiple of [2 ^ -S]. *)
Lemma near_real : forall n m, 0 <= n -> 0 < m -> (IZR n <= big * IZR (2 ^ S) * IZR m)%R ->
  let r := (IZR n / IZR m * pw (- S))%R in
  0 <= near prec emax S top n m < 2 ^ (emax + S) /\ (Rabs (IZR (near prec emax S top n m) * pw (- S) - r) <= u * r + tiny)%R.
Proof.
  intros n m N M B r.
  assert (B' : n <= 2 ^ (emax - 2 + S) * m).
  { apply le_IZR. rewrite mult_IZR, pw_IZR by lia. rewrite pw_add, <- (pw_IZR S) by lia. exact B. }
  assert (E : near_signed prec emax S top (2 ^ (emax - 2 + S)) = 2 ^ (emax - 2 + S)).
  { pose proof (pow_pos (emax - 2 + S) ltac:(lia)). unfold near_signed. destruct (Z.ltb_spec (2 ^ (emax - 2 + S)) 0); [lia|].
    rewrite <- (Z.mul_1_l (2 ^ (emax - 2 + S))). apply near_multiple; auto.
    - split; [lia|]. apply (Z.lt_le_trans _ (2 ^ 1)); [reflexivity|]. apply Z.pow_le_mono_r; lia.
    - unfold SpecFloat.emin. lia.
    - rewrite Z.mul_1_l. apply Z.pow_lt_mono_r; lia. }
  pose proof (near_le prec emax Hprec Hemax S top HS Htop n m _ N M (Z.lt_le_incl _ _ (pow_pos (emax - 2 + S) ltac:(lia))) B' E) as Q.
  assert (LT : 2 ^ (emax - 2 + S) < 2 ^ (emax + S)) by (apply Z.pow_lt_mono_r; lia).
  split; [lia|].
  pose proof (near_absolute n m N M ltac:(lia)) as A. set (v := near prec emax S top n m) in *. clearbody v. clear B B' E Q LT.
  apply IZR_le in A. rewrite mult_IZR, abs_IZR, minus_IZR, plus_IZR, !mult_IZR in A. rewrite !pw_IZR in A by (unfold SpecFloat.emin in *; lia).
  replace (emin + S + prec - 1) with (prec + (emin - 1) + S) in A by lia. rewrite !pw_add in A.
  apply IZR_lt in M. apply IZR_le in N.
  assert (R1 : r = (IZR n * / IZR m * pw (- S))%R) by reflexivity. clearbody r.
  unfold u, tiny.
  pose proof (pw_pos prec) as Pp. pose proof (pw_pos (- S)) as Ps. pose proof (Rinv_0_lt_compat _ M) as Pi.
  replace (IZR v * pw (- S) - r)%R with ((IZR v * IZR m - IZR n) * (/ IZR m * pw (- S)))%R.
  2:{ rewrite R1. field. lra. }
  rewrite Rabs_mult, (Rabs_right (/ IZR m * pw (- S))) by (apply Rle_ge, Rlt_le, Rmult_lt_0_compat; assumption).
  rewrite R1. clear R1.
  assert (U : (pw (- prec) * pw prec = 1)%R) by (rewrite Rmult_comm; apply pw_inv).
  assert (W : (pw (- S) * pw S = 1)%R) by (rewrite Rmult_comm; apply pw_inv).
  assert (I : (/ IZR m * IZR m = 1)%R) by (apply Rinv_l; lra).
  set (D := Rabs (IZR v * IZR m - IZR n)) in *.
  apply (Rmult_le_compat_r (pw (- prec) * (/ IZR m * pw (- S)))) in A.
  2:{ apply Rlt_le. repeat apply Rmult_lt_0_compat; try assumption. apply pw_pos. }
  replace (pw prec * D * (pw (- prec) * (/ IZR m * pw (- S))))%R with (D * (/ IZR m * pw (- S)) * (pw (- prec) * pw prec))%R in A by ring.
  rewrite U, Rmult_1_r in A.
  eapply Rle_trans; [exact A|]. apply Req_le.
  set (a := pw (- prec)) in *. set (b := pw prec) in *. set (c := pw (- S)) in *. set (d := pw S) in *. set (i := (/ IZR m)%R) in *.
  set (f := pw (emin - 1)) in *.
  replace ((IZR n + IZR m * (b * f * d)) * (a * (i * c)))%R
    with (a * (IZR n * i * c) + f * (a * b) * (c * d) * (i * IZR m))%R by ring.
  rewrite U, W, I. ring.
Qed.

Lemma u_pos : (0 < u)%R. Proof. apply pw_pos. Qed.
Lemma tiny_pos : (0 < tiny)%R. Proof. apply pw_pos. Qed.

Notation ns := (near_signed prec emax S top).

Lemma signed_real : forall z, (Rabs (IZR z * pw (- S)) <= big)%R ->
  - 2 ^ (emax + S) < ns z < 2 ^ (emax + S) /\
  (Rabs (IZR (ns z) * pw (- S) - IZR z * pw (- S)) <= u * Rabs (IZR z * pw (- S)) + tiny)%R.
Proof.
  assert (G : forall z, 0 <= z -> (Rabs (IZR z * pw (- S)) <= big)%R ->
    0 <= near prec emax S top z 1 < 2 ^ (emax + S) /\
    (Rabs (IZR (near prec emax S top z 1) * pw (- S) - IZR z * pw (- S)) <= u * Rabs (IZR z * pw (- S)) + tiny)%R).
  { intros z Hz B. pose proof (pw_pos (- S)) as Ps. pose proof (IZR_le _ _ Hz) as Hz'.
    assert (P : (0 <= IZR z * pw (- S))%R) by (apply Rmult_le_pos; lra). rewrite (Rabs_right _ (Rle_ge _ _ P)) in *.
    destruct (near_real z 1 Hz ltac:(lia)) as (N1 & N2).
    - rewrite pw_IZR by lia. rewrite Rmult_1_r. apply (Rmult_le_compat_r (pw S)) in B; [|apply Rlt_le, pw_pos].
      rewrite Rmult_assoc, (Rmult_comm (pw (- S))), pw_inv, Rmult_1_r in B. exact B.
    - split; [exact N1|]. replace (IZR z / 1)%R with (IZR z) in N2 by field. exact N2. }
  intros z B. unfold near_signed. destruct (Z.ltb_spec z 0).
  - destruct (G (- z) ltac:(lia)) as (N1 & N2).
    + rewrite opp_IZR, Ropp_mult_distr_l_reverse, Rabs_Ropp. exact B.
    + split; [lia|]. rewrite !opp_IZR in *.
      replace (- IZR z * pw (- S))%R with (- (IZR z * pw (- S)))%R in N2 by ring. rewrite Rabs_Ropp in N2.
      rewrite <- Rabs_Ropp. eapply Rle_trans; [|exact N2]. apply Req_le. f_equal. ring.
  - destruct (G z ltac:(lia) B) as (N1 & N2). split; [lia|exact N2].
Qed.

(** A rounded result. *)
Definition rounded (x : spec_float) (r : R) : Prop :=
  V x = true /\ is_finite x = true /\ (Rabs (value x - r) <= u * Rabs r + tiny)%R.

Lemma rounded_by : forall x z, V x = true -> K x = Some (ns z) -> (Rabs (IZR z * pw (- S)) <= big)%R -> rounded x (IZR z * pw (- S)).
Proof.
  intros x z Hv Hk B. destruct (signed_real z B) as (N1 & N2). split; [exact Hv|].
  assert (Hf : is_finite x = true) by (apply (finite_by_key prec emax S top Htop x _ Hv Hk N1)). split; [exact Hf|].
  rewrite (value_key x _ Hv Hf Hk). exact N2.
Qed.

Lemma add_real : forall x y, V x = true -> V y = true -> is_finite x = true -> is_finite y = true ->
  (Rabs (value x + value y) <= big)%R -> rounded (SFadd prec emax x y) (value x + value y).
Proof.
  intros x y Vx Vy Fx Fy B. destruct (some_key x Fx) as (a & Ka), (some_key y Fy) as (b & Kb).
  rewrite (value_key x a Vx Fx Ka), (value_key y b Vy Fy Kb) in *.
  replace (IZR a * pw (- S) + IZR b * pw (- S))%R with (IZR (a + b) * pw (- S))%R in * by (rewrite plus_IZR; ring).
  destruct (add_val prec emax Hprec Hemax S top HS x y a b Vx Vy Fx Fy Ka Kb) as (Vr & Kr). now apply rounded_by.
Qed.

Lemma sub_real : forall x y, V x = true -> V y = true -> is_finite x = true -> is_finite y = true ->
  (Rabs (value x - value y) <= big)%R -> rounded (SFsub prec emax x y) (value x - value y).
Proof.
  intros x y Vx Vy Fx Fy B. destruct (some_key x Fx) as (a & Ka), (some_key y Fy) as (b & Kb).
  rewrite (value_key x a Vx Fx Ka), (value_key y b Vy Fy Kb) in *.
  replace (IZR a * pw (- S) - IZR b * pw (- S))%R with (IZR (a - b) * pw (- S))%R in * by (rewrite minus_IZR; ring).
  destruct (sub_val prec emax Hprec Hemax S top HS x y a b Vx Vy Fx Fy Ka Kb) as (Vr & Kr). now apply rounded_by.
Qed.

Lemma rounded_zero : forall s, rounded (S754_zero s) 0.
Proof.
  intros s. split; [reflexivity|]. split; [reflexivity|]. cbn [value]. rewrite Rminus_0_r, Rabs_R0. pose proof tiny_pos. lra.
Qed.

Lemma rounded_frac : forall x s n m, 0 <= n -> 0 < m -> V x = true -> K x = Some (opp_if s (near prec emax S top n m)) ->
  let r := ((if s then -1 else 1) * (IZR n / IZR m * pw (- S)))%R in
  (Rabs r <= big)%R -> rounded x r.
Proof.
  intros x s n m N M Hv Hk r B.
  assert (M' := IZR_lt _ _ M). assert (N' := IZR_le _ _ N). pose proof (pw_pos (- S)) as Ps.
  assert (P : (0 <= IZR n / IZR m * pw (- S))%R).
  { apply Rmult_le_pos; [|lra]. apply Rmult_le_pos; [lra|]. apply Rlt_le, Rinv_0_lt_compat. lra. }
  assert (A : Rabs r = (IZR n / IZR m * pw (- S))%R).
  { unfold r. rewrite Rabs_mult, (Rabs_right _ (Rle_ge _ _ P)). replace (Rabs (if s then -1 else 1)) with 1%R; [ring|].
    destruct s; [rewrite Rabs_left; lra|rewrite Rabs_right; lra]. }
  rewrite A in B.
  destruct (near_real n m N M) as (N1 & N2).
  - rewrite pw_IZR by lia. apply (Rmult_le_compat_r (pw S * IZR m)) in B; [|apply Rlt_le, Rmult_lt_0_compat; [apply pw_pos|lra]].
    replace (IZR n / IZR m * pw (- S) * (pw S * IZR m))%R with (IZR n * (pw S * pw (- S)) * (/ IZR m * IZR m))%R in B by (unfold Rdiv; ring).
    rewrite pw_inv, Rinv_l in B by lra. lra.
  - split; [exact Hv|]. assert (Hf : is_finite x = true).
    { apply (finite_by_key prec emax S top Htop x _ Hv Hk). destruct s; cbn [opp_if]; lia. }
    split; [exact Hf|]. rewrite (value_key x _ Hv Hf Hk), A. cbv zeta in N2. unfold r. destruct s; cbn [opp_if].
    + rewrite opp_IZR. rewrite <- Rabs_Ropp. eapply Rle_trans; [|exact N2]. apply Req_le. f_equal. ring.
    + eapply Rle_trans; [|exact N2]. apply Req_le. f_equal. ring.
Qed.

Lemma finite_value : forall s m e, - S <= e -> value (S754_finite s m e) = ((if s then -1 else 1) * (IZR (Zpos m * 2 ^ (e + S)) * pw (- S)))%R.
Proof.
  intros s m e H. cbn [value]. rewrite mult_IZR, pw_IZR by lia. rewrite pw_add.
  replace (IZR (Z.pos m) * (pw e * pw S) * pw (- S))%R with (IZR (Z.pos m) * pw e * (pw S * pw (- S)))%R by ring. rewrite pw_inv. ring.
Qed.

Lemma sign_xor : forall a b, (if xorb a b then -1 else 1)%R = ((if a then -1 else 1) * (if b then -1 else 1))%R.
Proof. intros [|] [|]; cbn [xorb]; lra. Qed.

Lemma mul_real : forall x y, V x = true -> V y = true -> is_finite x = true -> is_finite y = true ->
  (Rabs (value x * value y) <= big)%R -> rounded (SFmul prec emax x y) (value x * value y).
Proof.
  intros x y Vx Vy Fx Fy B.
  destruct x as [sx|sx| |sx mx ex], y as [sy|sy| |sy my ey]; try discriminate;
    [| | |]; try (cbn [value SFmul]; rewrite ?Rmult_0_l, ?Rmult_0_r; apply rounded_zero).
  destruct (mul_val prec emax Hprec Hemax S top HS Htop sx mx ex sy my ey Vx Vy S2) as (Vr & Kr).
  pose proof (valid_facts prec emax Hprec S HS _ _ _ Vx) as (Hx & _). pose proof (valid_facts prec emax Hprec S HS _ _ _ Vy) as (Hy & _).
  pose proof (pow_pos (ex + S) ltac:(lia)) as Px. pose proof (pow_pos (ey + S) ltac:(lia)) as Py. pose proof (pow_pos S ltac:(lia)) as PS.
  rewrite !finite_value in * by lia.
  set (a := Z.pos mx * 2 ^ (ex + S)) in *. set (b := Z.pos my * 2 ^ (ey + S)) in *.
  replace ((if sx then -1 else 1) * (IZR a * pw (- S)) * ((if sy then -1 else 1) * (IZR b * pw (- S))))%R
    with ((if xorb sx sy then -1 else 1) * (IZR (a * b) / IZR (2 ^ S) * pw (- S)))%R in *.
  2:{ rewrite sign_xor, mult_IZR, pw_IZR by lia. unfold Rdiv. replace (/ pw S)%R with (pw (- S)); [ring|].
      pose proof (pw_pos S). apply (Rmult_eq_reg_l (pw S)); [|lra]. rewrite pw_inv, Rinv_r; lra. }
  apply rounded_frac; try assumption; unfold a, b; nia.
Qed.

Lemma div_real : forall x y, V x = true -> V y = true -> is_finite x = true -> is_finite y = true -> value y <> 0%R ->
  (Rabs (value x / value y) <= big)%R -> rounded (SFdiv prec emax x y) (value x / value y).
Proof.
  intros x y Vx Vy Fx Fy Ny B.
  destruct x as [sx|sx| |sx mx ex], y as [sy|sy| |sy my ey]; try discriminate; try (cbn [value] in Ny; lra).
  { cbn [SFdiv]. replace (value (S754_zero sx) / value (S754_finite sy my ey))%R with 0%R by (cbn [value]; unfold Rdiv; ring). apply rounded_zero. }
  destruct (div_val prec emax Hprec Hemax S top HS Htop sx mx ex sy my ey Vx Vy S3) as (Vr & Kr).
  pose proof (valid_facts prec emax Hprec S HS _ _ _ Vx) as (Hx & _). pose proof (valid_facts prec emax Hprec S HS _ _ _ Vy) as (Hy & _).
  pose proof (pow_pos (ex + S) ltac:(lia)) as Px. pose proof (pow_pos (ey + S) ltac:(lia)) as Py. pose proof (pow_pos S ltac:(lia)) as PS.
  rewrite !finite_value in * by lia.
  set (a := Z.pos mx * 2 ^ (ex + S)) in *. set (b := Z.pos my * 2 ^ (ey + S)) in *.
  assert (Pb : (0 < IZR b)%R) by (apply IZR_lt; unfold b; nia).
  replace ((if sx then -1 else 1) * (IZR a * pw (- S)) / ((if sy then -1 else 1) * (IZR b * pw (- S))))%R
    with ((if xorb sx sy then -1 else 1) * (IZR (a * 2 ^ S) / IZR b * pw (- S)))%R in *.
  2:{ rewrite sign_xor, mult_IZR, pw_IZR by lia. pose proof (pw_pos (- S)) as Ps. pose proof (pw_inv S) as E.
      replace (IZR a * pw S / IZR b * pw (- S))%R with (IZR a / IZR b * (pw S * pw (- S)))%R by (unfold Rdiv; ring). rewrite E.
      destruct sx, sy; field; lra. }
  apply rounded_frac; try assumption; unfold a, b; nia.
Qed.

Lemma key_order : forall x y a b, V x = true -> V y = true -> is_finite x = true -> is_finite y = true -> K x = Some a -> K y = Some b ->
  (value x < value y)%R <-> a < b.
Proof.
  intros x y a b Vx Vy Fx Fy Ka Kb. rewrite (value_key x a Vx Fx Ka), (value_key y b Vy Fy Kb). pose proof (pw_pos (- S)). split.
  - intros H1. apply lt_IZR. apply (Rmult_lt_reg_r (pw (- S))); assumption.
  - intros H1. apply Rmult_lt_compat_r; [assumption|]. now apply IZR_lt.
Qed.

Lemma lt_real : forall x y, V x = true -> V y = true -> is_finite x = true -> is_finite y = true ->
  SFltb x y = true <-> (value x < value y)%R.
Proof.
  intros x y Vx Vy Fx Fy. destruct (some_key x Fx) as (a & Ka), (some_key y Fy) as (b & Kb).
  rewrite (key_order x y a b Vx Vy Fx Fy Ka Kb). rewrite (lt_val prec emax Hprec Hemax S top HS Htop x y Vx Vy), Ka, Kb. apply Z.ltb_lt.
Qed.

Lemma le_real : forall x y, V x = true -> V y = true -> is_finite x = true -> is_finite y = true ->
  SFleb x y = true <-> (value x <= value y)%R.
Proof.
  intros x y Vx Vy Fx Fy. destruct (some_key x Fx) as (a & Ka), (some_key y Fy) as (b & Kb).
  pose proof (key_order y x b a Vy Vx Fy Fx Kb Ka) as Q.
  rewrite (le_val prec emax Hprec Hemax S top HS Htop x y Vx Vy), Ka, Kb, Z.leb_le. split.
  - intros H1. apply Rnot_lt_le. intros H2. apply Q in H2. lia.
  - intros H1. apply Z.nlt_ge. intros H2. apply Q in H2. lra.
Qed.

(** Small multiples of powers of two are exact. *)
Lemma normalize_real : forall z e s, Z.abs z < 2 ^ prec -> emin <= e -> e + prec <= emax ->
  V (binary_normalize prec emax z e s) = true /\ is_finite (binary_normalize prec emax z e s) = true /\
  value (binary_normalize prec emax z e s) = (IZR z * pw e)%R.
Proof.
  intros z e s B He Hm. destruct (normalize_val prec emax Hprec Hemax S top HS z e s ltac:(lia)) as (Vr & Kr).
  pose proof (pow_pos (e + S) ltac:(lia)) as P.
  assert (LT : 2 ^ prec * 2 ^ (e + S) <= 2 ^ (emax + S)) by (rewrite <- pow_add by lia; apply Z.pow_le_mono_r; lia).
  assert (E : ns (z * 2 ^ (e + S)) = z * 2 ^ (e + S)).
  { unfold near_signed. destruct (Z.ltb_spec (z * 2 ^ (e + S)) 0).
    - rewrite <- Z.mul_opp_l. rewrite (near_multiple prec emax Hprec S top HS (- z) (e + S) ltac:(lia) ltac:(lia) ltac:(nia)). ring.
    - apply (near_multiple prec emax Hprec S top HS z (e + S)); nia. }
  rewrite E in Kr.
  assert (Fr : is_finite (binary_normalize prec emax z e s) = true) by (apply (finite_by_key prec emax S top Htop _ _ Vr Kr); nia).
  split; [exact Vr|]. split; [exact Fr|]. rewrite (value_key _ _ Vr Fr Kr), mult_IZR, pw_IZR by lia. rewrite pw_add.
  replace (IZR z * (pw e * pw S) * pw (- S))%R with (IZR z * pw e * (pw S * pw (- S)))%R by ring. rewrite pw_inv. ring.
Qed.
End Format.
