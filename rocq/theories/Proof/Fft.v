(** The Fourier transform over the real numbers. *)
From Coq Require Import ZArith Reals List Bool Lia Lra Ring.
From Verif.Base Require Import Prelude Lemmas.
From Verif.Model Require Import Arith Vector Matrix Srfft Exact.
From Verif.Spec Require Import FftSpec.
From Verif.Proof Require Import Loop Matrix SrfftSteps SrfftTable SrfftCalls.
Import ListNotations.
Open Scope R_scope.

(** * Complex numbers *)
Notation complex := (R * R)%type.
Definition c0 : complex := (0, 0).
Definition c1 : complex := (1, 0).
Definition ci : complex := (0, 1).
Definition cadd (a b : complex) : complex := (fst a + fst b, snd a + snd b).
Definition cmul (a b : complex) : complex := (fst a * fst b - snd a * snd b, fst a * snd b + snd a * fst b).
Definition copp (a : complex) : complex := (- fst a, - snd a).
Definition csub (a b : complex) : complex := (fst a - fst b, snd a - snd b).
Definition conj (a : complex) : complex := (fst a, - snd a).
Definition real (x : R) : complex := (x, 0).

Lemma complex_ring : ring_theory c0 c1 cadd cmul csub copp (@eq complex).
Proof.
  constructor; intros; repeat match goal with a : complex |- _ => destruct a end;
    unfold cadd, cmul, csub, copp, c0, c1; cbn [fst snd]; f_equal; ring.
Qed.
Add Ring complex_r : complex_ring.

Lemma conj_add : forall a b, conj (cadd a b) = cadd (conj a) (conj b).
Proof. intros [a a'] [b b']. unfold conj, cadd. cbn [fst snd]. f_equal; ring. Qed.
Lemma conj_mul : forall a b, conj (cmul a b) = cmul (conj a) (conj b).
Proof. intros [a a'] [b b']. unfold conj, cmul. cbn [fst snd]. f_equal; ring. Qed.
Lemma conj_real : forall x, conj (real x) = real x.
Proof. intros x. unfold conj, real. cbn [fst snd]. f_equal; ring. Qed.
Lemma conj_conj : forall a, conj (conj a) = a.
Proof. intros [a b]. unfold conj. cbn [fst snd]. f_equal; ring. Qed.

(** * Roots of unity *)

(** [exp (- i t)] *)
Definition unit (t : R) : complex := (cos t, - sin t).

Lemma unit_add : forall a b, unit (a + b) = cmul (unit a) (unit b).
Proof. intros a b. unfold unit, cmul. cbn [fst snd]. rewrite cos_plus, sin_plus. f_equal; ring. Qed.
Lemma unit_0 : unit 0 = c1.
Proof. unfold unit, c1. rewrite cos_0, sin_0. f_equal; ring. Qed.
Lemma unit_neg : forall a, unit (- a) = conj (unit a).
Proof. intros a. unfold unit, conj. cbn [fst snd]. rewrite cos_neg, sin_neg. reflexivity. Qed.

(** The powers of the [2 ^ l]-th root. *)
Definition W (l : nat) (j : Z) : complex := unit (2 * PI * IZR j / IZR (2 ^ Z.of_nat l)).

Lemma pow_nz : forall l, IZR (2 ^ Z.of_nat l) <> 0.
Proof. intros l. apply not_0_IZR. pose proof (pow2_pos l). lia. Qed.

Lemma W_add : forall l a b, W l (a + b) = cmul (W l a) (W l b).
Proof. intros l a b. unfold W. rewrite <- unit_add. f_equal. rewrite plus_IZR. field. apply pow_nz. Qed.
Lemma W_0 : forall l, W l 0 = c1.
Proof. intros l. unfold W. rewrite <- unit_0. f_equal. field. apply pow_nz. Qed.
Lemma W_neg : forall l a, W l (- a) = conj (W l a).
Proof. intros l a. unfold W. rewrite <- unit_neg. f_equal. rewrite opp_IZR. field. apply pow_nz. Qed.
Lemma W_double : forall l a, W (S l) (2 * a) = W l a.
Proof.
  intros l a. unfold W. f_equal. rewrite pow2_S, !mult_IZR. field. apply pow_nz.
Qed.
Lemma W_half : forall l, W (S l) (2 ^ Z.of_nat l) = copp c1.
Proof.
  intros l. unfold W. rewrite pow2_S, mult_IZR.
  replace (2 * PI * IZR (2 ^ Z.of_nat l) / (2 * IZR (2 ^ Z.of_nat l))) with PI by (field; apply pow_nz).
  unfold unit, copp, c1. cbn [fst snd]. rewrite cos_PI, sin_PI. f_equal; ring.
Qed.
Lemma W_quarter : forall l, W (S (S l)) (2 ^ Z.of_nat l) = copp ci.
Proof.
  intros l. unfold W. rewrite !pow2_S, !mult_IZR.
  replace (2 * PI * IZR (2 ^ Z.of_nat l) / (2 * (2 * IZR (2 ^ Z.of_nat l)))) with (PI / 2) by (field; apply pow_nz).
  unfold unit, copp, ci. cbn [fst snd]. rewrite cos_PI2, sin_PI2. f_equal; ring.
Qed.
Lemma W_one : forall l, W l (2 ^ Z.of_nat l) = c1.
Proof. intros l. rewrite <- W_double, <- pow2_S. rewrite pow2_S, <- (Z.add_diag), W_add, W_half. ring. Qed.
Lemma W_turns : forall l a, W l (2 ^ Z.of_nat l * a) = c1.
Proof.
  intros l a. assert (P : forall n, W l (2 ^ Z.of_nat l * Z.of_nat n) = c1).
  { induction n as [|n IH]; [now rewrite Z.mul_0_r, W_0|].
    rewrite Nat2Z.inj_succ, Z.mul_succ_r, W_add, IH, W_one. ring. }
  destruct (Z.le_gt_cases 0 a) as [A|A].
  - rewrite <- (Z2Nat.id a) by lia. apply P.
  - replace (2 ^ Z.of_nat l * a)%Z with (- (2 ^ Z.of_nat l * Z.of_nat (Z.to_nat (- a))))%Z by (rewrite Z2Nat.id by lia; ring).
    rewrite W_neg, P. unfold conj, c1. cbn [fst snd]. f_equal. ring.
Qed.
Lemma W_unit : forall l a, cmul (W l a) (conj (W l a)) = c1.
Proof. intros l a. rewrite <- W_neg, <- W_add, Z.add_opp_diag_r. apply W_0. Qed.

(** * Sums over [0 .. 2 ^ l) *)

Fixpoint Sum (l : nat) (f : Z -> complex) : complex :=
  match l with
  | 0%nat => f 0%Z
  | S k => Sum k (fun n => cadd (f n) (f (2 ^ Z.of_nat k + n)%Z))
  end.

Lemma Sum_ext : forall l f g, (forall n, (0 <= n < 2 ^ Z.of_nat l)%Z -> f n = g n) -> Sum l f = Sum l g.
Proof.
  induction l as [|l IH]; intros f g H; [apply H; cbn; lia|]. cbn [Sum]. apply IH. intros n N.
  rewrite pow2_S in H. rewrite !H by lia. reflexivity.
Qed.
Lemma Sum_add : forall l f g, Sum l (fun n => cadd (f n) (g n)) = cadd (Sum l f) (Sum l g).
Proof.
  induction l as [|l IH]; intros f g; [reflexivity|]. cbn [Sum]. rewrite <- IH. apply Sum_ext. intros n _. ring.
Qed.
Lemma Sum_mul : forall l a f, Sum l (fun n => cmul a (f n)) = cmul a (Sum l f).
Proof.
  induction l as [|l IH]; intros a f; [reflexivity|]. cbn [Sum]. rewrite <- IH. apply Sum_ext. intros n _. ring.
Qed.
Lemma Sum_conj : forall l f, conj (Sum l f) = Sum l (fun n => conj (f n)).
Proof.
  induction l as [|l IH]; intros f; [reflexivity|]. cbn [Sum]. rewrite IH. apply Sum_ext. intros n _. apply conj_add.
Qed.
(** Even and odd places. *)
Lemma Sum_parity : forall l f, Sum (S l) f = Sum l (fun n => cadd (f (2 * n)%Z) (f (2 * n + 1)%Z)).
Proof.
  induction l as [|l IH]; intros f; [reflexivity|].
  change (Sum (S (S l)) f) with (Sum (S l) (fun n => cadd (f n) (f (2 ^ Z.of_nat (S l) + n)%Z))). rewrite IH.
  cbn [Sum]. apply Sum_ext. intros n _. rewrite pow2_S.
  replace (2 * (2 ^ Z.of_nat l + n))%Z with (2 * 2 ^ Z.of_nat l + 2 * n)%Z by ring.
  replace (2 * 2 ^ Z.of_nat l + 2 * n + 1)%Z with (2 * 2 ^ Z.of_nat l + (2 * n + 1))%Z by ring. ring.
Qed.

(** * The recursion computes the transform *)

Definition dft (l : nat) (x : Z -> complex) (k : Z) : complex := Sum l (fun n => cmul (x n) (W l (n * k))).

Lemma dft_ext : forall l x x' k, (forall n, (0 <= n < 2 ^ Z.of_nat l)%Z -> x n = x' n) -> dft l x k = dft l x' k.
Proof. intros l x x' k H. apply Sum_ext. intros n N. now rewrite H. Qed.

Lemma sum_diff_eq : forall a b, sum_diff rops a b = (cadd a b, csub a b).
Proof. reflexivity. Qed.
Lemma quarter_eq : forall a b, quarter_turn rops a b = (csub a (cmul ci b), cadd a (cmul ci b)).
Proof.
  intros [a a'] [b b']. unfold quarter_turn, csub, cadd, cmul, ci. cbn [fst snd]. unfold rops. cbn [f_add f_sub].
  f_equal; f_equal; ring.
Qed.
Lemma spin_eq : forall l n a, spin rops rtrig n (2 ^ Z.of_nat l) a = cmul a (W l n).
Proof.
  intros l n [a b]. unfold spin, turn, W, unit, cmul. cbn [fst snd]. unfold rops, rtrig. cbn [f_add f_sub f_mul t_cos t_sin t_neg t_angle].
  replace (IZR n * (2 * PI) / IZR (2 ^ Z.of_nat l)) with (2 * PI * IZR n / IZR (2 ^ Z.of_nat l)) by (field; apply pow_nz).
  f_equal; ring.
Qed.
Lemma eighth_eq : forall l a b, let e := (2 ^ Z.of_nat l)%Z in
  eighth_turn rops rtrig a b = (cmul a (W (S (S (S l))) e), cmul b (W (S (S (S l))) (3 * e))).
Proof.
  intros l [a a'] [b b'] e. unfold W. rewrite !pow2_S, !mult_IZR. fold e.
  assert (E : IZR e <> 0) by apply pow_nz.
  replace (2 * PI * IZR e / (2 * (2 * (2 * IZR e)))) with (PI / 4) by (field; exact E).
  replace (2 * PI * (3 * IZR e) / (2 * (2 * (2 * IZR e)))) with (3 * (PI / 4)) by (field; exact E).
  unfold unit, eighth_turn, cmul. cbn [fst snd]. unfold rops, rtrig. cbn [f_add f_sub f_mul t_neg t_sqhalf].
  rewrite cos_PI4, sin_PI4, cos_3PI4, sin_3PI4. unfold Rdiv. f_equal; f_equal; ring.
Qed.

Lemma dft_even : forall l x k, dft (S l) x (2 * k) = dft l (fun n => cadd (x n) (x (2 ^ Z.of_nat l + n)%Z)) k.
Proof.
  intros l x k. unfold dft. cbn [Sum]. apply Sum_ext. intros n _.
  replace ((2 ^ Z.of_nat l + n) * (2 * k))%Z with (2 * (2 ^ Z.of_nat l * k) + 2 * (n * k))%Z by ring.
  replace (n * (2 * k))%Z with (2 * (n * k))%Z by ring.
  rewrite W_add, !W_double, W_turns. ring.
Qed.

Lemma dft_odd : forall l x k,
  dft (S l) x (2 * k + 1) = Sum l (fun n => cmul (csub (x n) (x (2 ^ Z.of_nat l + n)%Z)) (W (S l) (n * (2 * k + 1)))).
Proof.
  intros l x k. unfold dft. cbn [Sum]. apply Sum_ext. intros n _.
  replace ((2 ^ Z.of_nat l + n) * (2 * k + 1))%Z with (2 * (2 ^ Z.of_nat l * k) + 2 ^ Z.of_nat l + n * (2 * k + 1))%Z by ring.
  rewrite (W_add _ (2 * (2 ^ Z.of_nat l * k) + 2 ^ Z.of_nat l)), W_add, W_double, W_turns, W_half. ring.
Qed.

Lemma W_four : forall l n k, W (S (S l)) (n * (2 * (2 * k) + 1)) = cmul (W (S (S l)) n) (W l (n * k)).
Proof.
  intros l n k. replace (n * (2 * (2 * k) + 1))%Z with (n + 2 * (2 * (n * k)))%Z by ring. now rewrite W_add, !W_double.
Qed.
Lemma W_four' : forall l n k, W (S (S l)) (n * (2 * (2 * k + 1) + 1)) = cmul (W (S (S l)) (3 * n)) (W l (n * k)).
Proof.
  intros l n k. replace (n * (2 * (2 * k + 1) + 1))%Z with (3 * n + 2 * (2 * (n * k)))%Z by ring. now rewrite W_add, !W_double.
Qed.

Lemma dft_one : forall l x k, let u n := csub (x n) (x (2 ^ Z.of_nat (S l) + n)%Z) in
  dft (S (S l)) x (2 * (2 * k) + 1) =
  dft l (fun n => cmul (csub (u n) (cmul ci (u (2 ^ Z.of_nat l + n)%Z))) (W (S (S l)) n)) k.
Proof.
  intros l x k u. rewrite dft_odd. unfold dft. cbn [Sum]. apply Sum_ext. intros n _. fold (u n). fold (u (2 ^ Z.of_nat l + n)%Z).
  rewrite !W_four. replace ((2 ^ Z.of_nat l + n) * k)%Z with (2 ^ Z.of_nat l * k + n * k)%Z by ring.
  rewrite !W_add, W_turns, W_quarter. ring.
Qed.
Lemma dft_three : forall l x k, let u n := csub (x n) (x (2 ^ Z.of_nat (S l) + n)%Z) in
  dft (S (S l)) x (2 * (2 * k + 1) + 1) =
  dft l (fun n => cmul (cadd (u n) (cmul ci (u (2 ^ Z.of_nat l + n)%Z))) (W (S (S l)) (3 * n))) k.
Proof.
  intros l x k u. rewrite dft_odd. unfold dft. cbn [Sum]. apply Sum_ext. intros n _. fold (u n). fold (u (2 ^ Z.of_nat l + n)%Z).
  rewrite !W_four'. replace ((2 ^ Z.of_nat l + n) * k)%Z with (2 ^ Z.of_nat l * k + n * k)%Z by ring.
  replace (3 * (2 ^ Z.of_nat l + n))%Z with (2 ^ Z.of_nat l + (2 ^ Z.of_nat l + 2 ^ Z.of_nat l) + 3 * n)%Z by ring.
  rewrite !W_add, W_turns, W_quarter.
  replace (cmul (copp ci) (cmul (copp ci) (copp ci))) with ci by (unfold cmul, copp, ci; cbn [fst snd]; f_equal; ring). ring.
Qed.

Theorem fast_dft : forall l x p, (0 <= p < 2 ^ Z.of_nat l)%Z -> fast rops rtrig l x p = dft l x (rev_bits l p).
Proof.
  induction l as [l IH] using (well_founded_induction lt_wf). intros x p P.
  destruct l as [|[|j]].
  - change (2 ^ Z.of_nat 0)%Z with 1%Z in P. assert (p = 0%Z) as -> by lia. unfold dft. cbn [fast Sum rev_bits].
    change (0 * 0)%Z with 0%Z. rewrite W_0. ring.
  - change (2 ^ Z.of_nat 1)%Z with 2%Z in P. unfold dft. cbn [fast Sum]. change (2 ^ Z.of_nat 0 + 0)%Z with 1%Z.
    rewrite !sum_diff_eq. cbn [fst snd]. assert (p = 0%Z \/ p = 1%Z) as [->| ->] by lia.
    + change (rev_bits 1 0) with 0%Z. change (0 * 0)%Z with 0%Z. change (1 * 0)%Z with 0%Z. rewrite W_0. cbn [Z.eqb]. ring.
    + change (rev_bits 1 1) with 1%Z. change (0 * 1)%Z with 0%Z. change (1 * 1)%Z with (2 ^ Z.of_nat 0)%Z.
      rewrite W_0, W_half. cbn [Z.eqb]. ring.
  - rewrite fast_SS. cbv zeta.
    pose proof (pow2_S (S j)) as E1. pose proof (pow2_S j) as E2. pose proof (pow2_pos j) as P0.
    set (m2 := (2 ^ Z.of_nat (S j))%Z) in *. set (m4 := (2 ^ Z.of_nat j)%Z) in *.
    (* The twiddle factors. *)
    assert (Tw : forall n a b, (0 <= n < m4)%Z ->
      (if (n =? 0)%Z then (a, b) else twist rops rtrig (m4 / 2) (2 ^ Z.of_nat (S (S j))) n a b) =
      (cmul a (W (S (S j)) n), cmul b (W (S (S j)) (3 * n)))).
    { intros n a b N. destruct (Z.eqb_spec n 0) as [->|N0].
      - change (3 * 0)%Z with 0%Z. rewrite W_0. f_equal; ring.
      - unfold twist. destruct (Z.eqb_spec n (m4 / 2)) as [->|N8].
        + destruct j as [|i]; [unfold m4 in N0; exfalso; apply N0; reflexivity|].
          assert (m4 / 2 = 2 ^ Z.of_nat i)%Z as -> by (unfold m4; rewrite pow2_S, Z.mul_comm; apply Z.div_mul; lia).
          apply eighth_eq.
        + now rewrite !spin_eq. }
    destruct (Z.ltb_spec p m2) as [H|H].
    + rewrite (IH (S j)) by (try lia; fold m2; lia). rewrite (rev_high0 (S j) p) by (fold m2; lia).
      rewrite dft_even. reflexivity.
    + assert (Er : rev_bits (S (S j)) p = (2 * rev_bits (S j) (p - m2) + 1)%Z)
        by (rewrite <- rev_high1 by (fold m2; lia); f_equal; fold m2; lia).
      rewrite Er.
      destruct (Z.ltb_spec p (m2 + m4)) as [H'|H'].
      * rewrite (IH j) by (try lia; fold m4; lia). rewrite (rev_high0 j (p - m2)) by (fold m4; lia). rewrite dft_one.
        apply dft_ext. fold m4 m2. intros n N. rewrite quarter_eq, !sum_diff_eq. cbn [fst snd].
        rewrite Tw by exact N. reflexivity.
      * rewrite (IH j) by (try lia; fold m4; lia).
        replace (rev_bits (S j) (p - m2)) with (2 * rev_bits j (p - m2 - m4) + 1)%Z
          by (rewrite <- rev_high1 by (fold m4; lia); f_equal; fold m4; lia).
        rewrite dft_three. apply dft_ext. fold m4 m2. intros n N. rewrite quarter_eq, !sum_diff_eq. cbn [fst snd].
        rewrite Tw by exact N. reflexivity.
Qed.

Theorem transform_dft : forall l x k, (0 <= k < 2 ^ Z.of_nat l)%Z -> transform rops rtrig l true x k = dft l x k.
Proof. intros l x k K. unfold transform. rewrite fast_dft by apply rev_range. now rewrite rev_invol. Qed.

(** * Real signals *)

Lemma complex_mul_eq : forall a b, complex_mul rops a b = cmul a b.
Proof. intros [a a'] [b b']. unfold complex_mul, cmul. cbn [fst snd]. unfold rops. cbn [f_add f_sub f_mul]. f_equal; ring. Qed.

Definition half (a : complex) : complex := (fst a / 2, snd a / 2).

Lemma half_double : forall a, half (cadd a a) = a.
Proof. intros [a b]. unfold half, cadd. cbn [fst snd]. f_equal; field. Qed.

Lemma half_mul : forall a b, half (cmul a b) = cmul a (half b).
Proof. intros [a a'] [b b']. unfold half, cmul. cbn [fst snd]. f_equal; field. Qed.

Lemma unmix_eq : forall kn b b', unmix rops rtrig kn b b' =
  cadd (half (cadd b (conj b'))) (cmul kn (cmul (copp ci) (half (csub b (conj b'))))).
Proof.
  intros [k k'] [b1 b2] [b3 b4]. unfold unmix, plus, c_of, d_of. rewrite complex_mul_eq.
  unfold half, cadd, cmul, csub, copp, conj, ci. cbn [fst snd]. unfold rops, rtrig. cbn [f_add f_sub f_mul t_half t_neg_half].
  f_equal; field.
Qed.

Lemma unmix'_eq : forall kn b b', unmix' rops rtrig kn b b' = unmix rops rtrig (copp (conj kn)) b' b.
Proof.
  intros [k k'] [b1 b2] [b3 b4]. unfold unmix, unmix', plus, c_of, d_of. rewrite !complex_mul_eq.
  unfold cmul, copp, conj. cbn [fst snd]. unfold rops, rtrig. cbn [f_add f_sub f_mul t_half t_neg_half t_neg].
  f_equal; field.
Qed.

Lemma unmix_parts : forall kn e o, unmix rops rtrig kn (cadd e o) (conj (csub e o)) = cadd e (cmul kn (cmul (copp ci) o)).
Proof.
  intros kn e o. rewrite unmix_eq, conj_conj.
  replace (cadd (cadd e o) (csub e o)) with (cadd e e) by ring. replace (csub (cadd e o) (csub e o)) with (cadd o o) by ring.
  now rewrite !half_double.
Qed.

Lemma turned_pow : forall l s e k, turned rops (W l s) e k = cmul e (W l (Z.of_nat k * s)).
Proof.
  intros l s e. induction k as [|k IH]; cbn [turned].
  - change (Z.of_nat 0 * s)%Z with 0%Z. rewrite W_0. ring.
  - rewrite complex_mul_eq, IH. replace (Z.of_nat (S k) * s)%Z with (s + Z.of_nat k * s)%Z by lia. rewrite W_add. ring.
Qed.

Lemma root_of_W : forall l sign, root_of rtrig (2 ^ Z.of_nat l * 2) sign = W (S l) (- sign).
Proof.
  intros l sign. unfold root_of, W, unit, rtrig. cbn [t_cos t_sin t_root]. rewrite pow2_S, (Z.mul_comm _ 2), opp_IZR.
  assert (E : IZR (2 * 2 ^ Z.of_nat l) <> 0) by (rewrite <- pow2_S; apply pow_nz).
  replace (2 * PI * - IZR sign / IZR (2 * 2 ^ Z.of_nat l)) with (- (2 * PI / IZR (2 * 2 ^ Z.of_nat l) * IZR sign)) by (field; exact E).
  rewrite cos_neg, sin_neg. f_equal. ring.
Qed.

Lemma W_reflect : forall l k, W (S l) (2 ^ Z.of_nat l - k) = copp (conj (W (S l) k)).
Proof. intros l k. rewrite <- W_neg. replace (2 ^ Z.of_nat l - k)%Z with (2 ^ Z.of_nat l + - k)%Z by ring. rewrite W_add, W_half. ring. Qed.

(** The loop for [1 <= k < N / 2]: one formula for both halves. *)
Lemma real_step_eq : forall l sign e b k, sign = 1%Z \/ sign = (-1)%Z -> e = c1 \/ e = copp c1 ->
  (1 <= k < 2 ^ Z.of_nat l)%Z ->
  real_step rops rtrig (2 ^ Z.of_nat l) (root_of rtrig (2 ^ Z.of_nat l * 2) sign) e b k =
  unmix rops rtrig (cmul e (W (S l) (- sign * k))) (b k) (b (2 ^ Z.of_nat l - k)%Z).
Proof.
  intros l sign e b k Hs He K. unfold real_step. destruct (Z.eqb_spec k 0); [lia|]. rewrite root_of_W.
  destruct (Z.leb_spec (2 * k) (2 ^ Z.of_nat l)).
  - rewrite turned_pow. rewrite Z2Nat.id by lia. now rewrite (Z.mul_comm k).
  - rewrite unmix'_eq, turned_pow. rewrite Z2Nat.id by lia. f_equal. rewrite conj_mul, <- W_neg.
    assert (conj e = e) as -> by (destruct He as [-> | ->]; unfold conj, copp, c1; cbn [fst snd]; f_equal; ring).
    assert (A : W (S l) (- ((2 ^ Z.of_nat l - k) * - sign)) = copp (W (S l) (- sign * k))); [|rewrite A; ring].
    destruct Hs as [-> | ->].
    + replace (- ((2 ^ Z.of_nat l - k) * - (1)))%Z with (2 ^ Z.of_nat l - k)%Z by ring. rewrite W_reflect.
      replace (- (1) * k)%Z with (- k)%Z by ring. now rewrite W_neg.
    + replace (- ((2 ^ Z.of_nat l - k) * - -1))%Z with (- (2 ^ Z.of_nat l - k))%Z by ring. rewrite W_neg, W_reflect.
      replace (- -1 * k)%Z with k by ring. unfold conj, copp. cbn [fst snd]. now rewrite Ropp_involutive.
Qed.

Section Signal.
Variable l : nat.
Variable s : Z -> R.
Definition evens (k : Z) : complex := dft l (fun n => real (s (2 * n)%Z)) k.
Definition odds (k : Z) : complex := dft l (fun n => real (s (2 * n + 1)%Z)) k.
Definition joined (n : Z) : complex := (s (2 * n)%Z, s (2 * n + 1)%Z).

Lemma dft_joined : forall k, dft l joined k = cadd (evens k) (cmul ci (odds k)).
Proof.
  intros k. unfold evens, odds, dft. rewrite <- Sum_mul, <- Sum_add. apply Sum_ext. intros n _.
  replace (joined n) with (cadd (real (s (2 * n)%Z)) (cmul ci (real (s (2 * n + 1)%Z)))); [ring|].
  unfold joined, cadd, cmul, ci, real. cbn [fst snd]. f_equal; ring.
Qed.

Lemma dft_signal : forall k, dft (S l) (fun n => real (s n)) k = cadd (evens k) (cmul (W (S l) k) (odds k)).
Proof.
  intros k. unfold dft at 1. rewrite Sum_parity. unfold evens, odds, dft. rewrite <- Sum_mul, <- Sum_add. apply Sum_ext. intros n _.
  replace (2 * n * k)%Z with (2 * (n * k))%Z by ring. replace ((2 * n + 1) * k)%Z with (2 * (n * k) + k)%Z by ring.
  rewrite W_add, !W_double. ring.
Qed.

Lemma dft_mirror : forall (t : Z -> R) k, conj (dft l (fun n => real (t n)) (2 ^ Z.of_nat l - k)%Z) = dft l (fun n => real (t n)) k.
Proof.
  intros t k. unfold dft. rewrite Sum_conj. apply Sum_ext. intros n _. rewrite conj_mul, conj_real, <- W_neg.
  replace (- (n * (2 ^ Z.of_nat l - k)))%Z with (n * k + 2 ^ Z.of_nat l * - n)%Z by ring. rewrite W_add, W_turns. ring.
Qed.

Lemma dft_periodic : forall x k, dft l x (2 ^ Z.of_nat l + k)%Z = dft l x k.
Proof.
  intros x k. unfold dft. apply Sum_ext. intros n _. replace (n * (2 ^ Z.of_nat l + k))%Z with (n * k + 2 ^ Z.of_nat l * n)%Z by ring.
  rewrite W_add, W_turns. ring.
Qed.

(** The terms of a real signal at [0] are real. *)
Lemma dft_zero_real : forall t : Z -> R, snd (dft l (fun n => real (t n)) 0) = 0.
Proof.
  intros t. pose proof (dft_mirror t 0) as H. rewrite Z.sub_0_r in H. rewrite <- (Z.add_0_r (2 ^ Z.of_nat l)) in H.
  rewrite dft_periodic in H. apply (f_equal snd) in H. unfold conj in H. cbn [snd] in H. lra.
Qed.

Lemma evens_mirror : forall k, conj (evens (2 ^ Z.of_nat l - k)) = evens k.
Proof. intros k. exact (dft_mirror (fun n => s (2 * n)%Z) k). Qed.
Lemma odds_mirror : forall k, conj (odds (2 ^ Z.of_nat l - k)) = odds k.
Proof. intros k. exact (dft_mirror (fun n => s (2 * n + 1)%Z) k). Qed.

Lemma evens_turn : evens (2 ^ Z.of_nat l) = evens 0.
Proof. rewrite <- (Z.add_0_r (2 ^ Z.of_nat l)). apply dft_periodic. Qed.
Lemma odds_turn : odds (2 ^ Z.of_nat l) = odds 0.
Proof. rewrite <- (Z.add_0_r (2 ^ Z.of_nat l)). apply dft_periodic. Qed.

Lemma of_conj : forall a b, conj a = b -> a = conj b.
Proof. intros a b <-. symmetry. apply conj_conj. Qed.

Lemma conj_ci : conj ci = copp ci.
Proof. unfold conj, copp, ci. cbn [fst snd]. f_equal; ring. Qed.
Lemma ci_ci : cmul ci ci = copp c1.
Proof. unfold cmul, copp, ci, c1. cbn [fst snd]. f_equal; ring. Qed.

Definition spectrum (k : Z) : complex := dft (S l) (fun n => real (s n)) k.

(** What is at place [k] after the forward transform. *)
Definition packed (k : Z) : complex :=
  if (k =? 0)%Z then (fst (spectrum 0), fst (spectrum (2 ^ Z.of_nat l))) else spectrum k.

Lemma forward_packed : forall k, (0 <= k < 2 ^ Z.of_nat l)%Z -> forward_of rops rtrig l joined k = packed k.
Proof.
  intros k K. unfold forward_of, packed. pose proof (pow2_pos l) as P.
  rewrite (real_step_ext _ _ _ _ _ _ (dft l joined) k K) by (intros n N; now apply transform_dft).
  destruct (Z.eqb_spec k 0) as [->|N0].
  - unfold real_step. cbn [Z.eqb]. unfold spectrum. rewrite !dft_signal, dft_joined.
    rewrite evens_turn, odds_turn, W_half, W_0.
    assert (E : snd (evens 0) = 0) by exact (dft_zero_real (fun n => s (2 * n)%Z)).
    assert (D1 : snd (odds 0) = 0) by exact (dft_zero_real (fun n => s (2 * n + 1)%Z)).
    unfold cadd, cmul, ci, c1, copp. cbn [fst snd]. unfold rops. cbn [f_add f_sub]. rewrite E, D1. f_equal; ring.
  - rewrite (real_step_eq l (-1) c1) by (auto; lia). rewrite !dft_joined.
    rewrite (of_conj _ _ (evens_mirror k)), (of_conj _ _ (odds_mirror k)).
    replace (cadd (conj (evens k)) (cmul ci (conj (odds k)))) with (conj (csub (evens k) (cmul ci (odds k))))
      by (unfold conj, csub, cadd, cmul, ci; cbn [fst snd]; f_equal; ring).
    rewrite unmix_parts. unfold spectrum. rewrite dft_signal. replace (- -1 * k)%Z with k by ring.
    replace (cmul (copp ci) (cmul ci (odds k))) with (odds k); [ring|].
    replace (cmul (copp ci) (cmul ci (odds k))) with (cmul (copp (cmul ci ci)) (odds k)) by ring. rewrite ci_ci. ring.
Qed.

(** * And back *)

Definition delta (v : complex) (n m : Z) : complex := if (m =? n)%Z then v else c0.

Lemma Sum_zero : forall j, Sum j (fun _ => c0) = c0.
Proof. induction j as [|j IH]; [reflexivity|]. cbn [Sum]. transitivity (Sum j (fun _ => c0)); [apply Sum_ext; intros; ring|exact IH]. Qed.

Lemma Sum_delta : forall j v n, (0 <= n < 2 ^ Z.of_nat j)%Z -> Sum j (delta v n) = v.
Proof.
  induction j as [|j IH]; intros v n N.
  - change (2 ^ Z.of_nat 0)%Z with 1%Z in N. assert (n = 0%Z) as -> by lia. reflexivity.
  - cbn [Sum]. rewrite pow2_S in N. destruct (Z.lt_ge_cases n (2 ^ Z.of_nat j)) as [H|H].
    + transitivity (Sum j (delta v n)); [|apply IH; lia]. apply Sum_ext. intros m M.
      unfold delta. destruct (Z.eqb_spec (2 ^ Z.of_nat j + m) n); [lia|]. destruct (m =? n)%Z; ring.
    + transitivity (Sum j (delta v (n - 2 ^ Z.of_nat j)%Z)); [|apply IH; lia]. apply Sum_ext. intros m M. unfold delta.
      destruct (Z.eqb_spec m n); [lia|].
      destruct (Z.eqb_spec (2 ^ Z.of_nat j + m) n), (Z.eqb_spec m (n - 2 ^ Z.of_nat j)); try lia; ring.
Qed.

Lemma Sum_swap : forall a b f, Sum a (fun k => Sum b (f k)) = Sum b (fun m => Sum a (fun k => f k m)).
Proof.
  induction a as [|a IH]; intros b f; [reflexivity|]. cbn [Sum]. rewrite <- IH. apply Sum_ext. intros n _. symmetry. apply Sum_add.
Qed.

Lemma Sum_roots : forall j a, Sum j (fun k => W j (k * a)) = if (a mod 2 ^ Z.of_nat j =? 0)%Z then real (IZR (2 ^ Z.of_nat j)) else c0.
Proof.
  induction j as [|j IH]; intros a.
  - cbn [Sum]. change (2 ^ Z.of_nat 0)%Z with 1%Z. rewrite Z.mod_1_r. cbn [Z.eqb]. rewrite Z.mul_0_l, W_0. reflexivity.
  - cbn [Sum]. pose proof (pow2_pos j) as P. pose proof (Z.div_mod a 2 ltac:(lia)) as E. pose proof (Z.mod_pos_bound a 2 ltac:(lia)) as B0.
    rewrite pow2_S. set (b := (a / 2)%Z) in *. assert (a mod 2 = 0 \/ a mod 2 = 1)%Z as [M|M] by lia; rewrite M in E; clearbody b.
    + assert (a = 2 * b)%Z as -> by lia. rewrite Z.mul_mod_distr_l by lia.
      rewrite (Sum_ext j _ (fun k => cmul (cadd c1 c1) (W j (k * b)))).
      * rewrite Sum_mul, IH. destruct (Z.eqb_spec (b mod 2 ^ Z.of_nat j) 0) as [->|N].
        -- change (2 * 0 =? 0)%Z with true. cbv iota. rewrite mult_IZR. unfold cmul, cadd, c1, real. cbn [fst snd]. f_equal; ring.
        -- destruct (Z.eqb_spec (2 * (b mod 2 ^ Z.of_nat j)) 0); [lia|]. ring.
      * intros k _. replace (k * (2 * b))%Z with (2 * (k * b))%Z by ring.
        replace ((2 ^ Z.of_nat j + k) * (2 * b))%Z with (2 * (2 ^ Z.of_nat j * b) + 2 * (k * b))%Z by ring.
        rewrite W_add, !W_double, W_turns. ring.
    + destruct (Z.eqb_spec (a mod (2 * 2 ^ Z.of_nat j)) 0) as [Q|Q].
      { exfalso. pose proof (Z.div_mod a (2 * 2 ^ Z.of_nat j) ltac:(lia)) as E'. rewrite Q in E'. rewrite <- Z.mul_assoc in E'. lia. }
      transitivity (Sum j (fun _ => c0)); [|apply Sum_zero]. apply Sum_ext. intros k _.
      replace ((2 ^ Z.of_nat j + k) * a)%Z with (2 ^ Z.of_nat j * a + k * a)%Z by ring. rewrite W_add.
      replace (2 ^ Z.of_nat j * a)%Z with (2 * (2 ^ Z.of_nat j * b) + 2 ^ Z.of_nat j)%Z by (rewrite E; ring).
      rewrite W_add, W_double, W_turns, W_half. ring.
Qed.

Definition scaled (c : R) (a : complex) : complex := (c * fst a, c * snd a).

Lemma inverse : forall x n, (0 <= n < 2 ^ Z.of_nat l)%Z ->
  Sum l (fun k => cmul (dft l x k) (conj (W l (k * n)))) = scaled (IZR (2 ^ Z.of_nat l)) (x n).
Proof.
  intros x n N. unfold dft.
  rewrite (Sum_ext l _ (fun k => Sum l (fun m => cmul (x m) (W l (k * (m - n)))))).
  - rewrite Sum_swap. rewrite <- (Sum_delta l (scaled (IZR (2 ^ Z.of_nat l)) (x n)) n N). apply Sum_ext. intros m M.
    rewrite Sum_mul, Sum_roots. unfold delta. destruct (Z.eqb_spec m n) as [->|Nm].
    + rewrite Z.sub_diag, Z.mod_0_l by lia. cbn [Z.eqb]. unfold scaled, cmul, real. cbn [fst snd]. f_equal; ring.
    + destruct (Z.eqb_spec ((m - n) mod 2 ^ Z.of_nat l) 0) as [Q|Q]; [|ring]. exfalso.
      apply Z.mod_divide in Q; [|lia]. destruct Q as [q Q]. pose proof (pow2_pos l).
      assert (q = 0 \/ q <= -1 \/ 1 <= q)%Z as [->|[Hq|Hq]] by lia; nia.
  - intros k K. rewrite (Z.mul_comm k n) at 1.
    replace (cmul (Sum l (fun n0 => cmul (x n0) (W l (n0 * k)))) (conj (W l (n * k))))
      with (cmul (conj (W l (n * k))) (Sum l (fun n0 => cmul (x n0) (W l (n0 * k))))) by ring.
    rewrite <- Sum_mul. apply Sum_ext. intros m M. rewrite <- W_neg.
    replace (k * (m - n))%Z with (- (n * k) + m * k)%Z by ring. rewrite W_add. ring.
Qed.

Lemma transform_back : forall x k, (0 <= k < 2 ^ Z.of_nat l)%Z ->
  transform rops rtrig l false x k = Sum l (fun n => cmul (x n) (conj (W l (n * k)))).
Proof.
  intros x k K. unfold transform. rewrite fast_dft by apply rev_range. rewrite rev_invol by exact K.
  assert (Fl : forall a, flip a = cmul ci (conj a)).
  { intros [a b]. unfold flip, cmul, ci, conj. cbn [fst snd]. f_equal; ring. }
  rewrite Fl. unfold dft. rewrite Sum_conj, <- Sum_mul. apply Sum_ext. intros n _. rewrite Fl, !conj_mul, conj_conj, conj_ci.
  replace (cmul ci (cmul (cmul (copp ci) (x n)) (conj (W l (n * k))))) with (cmul (copp (cmul ci ci)) (cmul (x n) (conj (W l (n * k))))) by ring.
  rewrite ci_ci. ring.
Qed.

Lemma backward_signal : forall k, (0 <= k < 2 ^ Z.of_nat l)%Z ->
  backward_of rops rtrig l packed k = scaled (IZR (2 ^ Z.of_nat (S l))) (joined k).
Proof.
  intros k K. unfold backward_of. pose proof (pow2_pos l) as P.
  match goal with |- context [transform _ _ l false ?z k] => set (z0 := z) end.
  assert (Z0 : forall n, (0 <= n < 2 ^ Z.of_nat l)%Z -> z0 n = dft l joined n).
  { intros n N. unfold z0. destruct (Z.eqb_spec n 0) as [->|Nn].
    - unfold real_step. cbn [Z.eqb]. unfold packed. cbn [Z.eqb fst snd]. unfold spectrum. rewrite !dft_signal, dft_joined.
      rewrite evens_turn, odds_turn, W_half, W_0.
      assert (E : snd (evens 0) = 0) by exact (dft_zero_real (fun n => s (2 * n)%Z)).
      assert (D1 : snd (odds 0) = 0) by exact (dft_zero_real (fun n => s (2 * n + 1)%Z)).
      unfold cadd, cmul, ci, c1, copp. cbn [fst snd]. unfold rops, rtrig. cbn [f_add f_sub t_halve]. rewrite E, D1. f_equal; field.
    - rewrite (real_step_eq l 1 (f_int rops (-1), f_zero rops)) by (try lia; right; unfold copp, c1, rops; cbn [fst snd f_int f_zero]; f_equal; ring).
      unfold packed. destruct (Z.eqb_spec n 0); [lia|]. destruct (Z.eqb_spec (2 ^ Z.of_nat l - n) 0); [lia|].
      unfold spectrum. rewrite !dft_signal, dft_joined, W_reflect.
      rewrite (of_conj _ _ (evens_mirror n)), (of_conj _ _ (odds_mirror n)).
      replace (cadd (conj (evens n)) (cmul (copp (conj (W (S l) n))) (conj (odds n)))) with (conj (csub (evens n) (cmul (W (S l) n) (odds n))))
        by (unfold conj, csub, cadd, cmul, copp; cbn [fst snd]; f_equal; ring).
      rewrite unmix_parts. replace (- (1) * n)%Z with (- n)%Z by ring. rewrite W_neg.
      replace (f_int rops (-1), f_zero rops) with (copp c1) by (unfold copp, c1, rops; cbn [fst snd f_int f_zero]; f_equal; ring).
      replace (cmul (cmul (copp c1) (conj (W (S l) n))) (cmul (copp ci) (cmul (W (S l) n) (odds n))))
        with (cmul (cmul (W (S l) n) (conj (W (S l) n))) (cmul ci (odds n))) by ring.
      rewrite W_unit. ring. }
  rewrite (transform_ext _ _ l false z0 (dft l joined) k Z0). rewrite transform_back by exact K. rewrite inverse by exact K.
  rewrite pow2_S, mult_IZR. unfold scaled. cbn [fst snd]. unfold rtrig. cbn [t_double]. f_equal; ring.
Qed.
End Signal.

(** * Lists *)

Lemma sum_of_app : forall a b, sum_of (a ++ b) = sum_of a + sum_of b.
Proof. induction a as [|x a IH]; intros b; cbn [sum_of fold_right app]; [unfold sum_of; ring|]. fold (sum_of (a ++ b)) (sum_of a). rewrite IH. ring. Qed.

Lemma of_nat_pow : forall l, Z.of_nat (2 ^ l) = (2 ^ Z.of_nat l)%Z.
Proof. intros l. rewrite Nat2Z.inj_pow. reflexivity. Qed.

Lemma map_seq_shift : forall (h : nat -> R) a m b, map (fun n => h (a + n)%nat) (seq b m) = map h (seq (a + b) m).
Proof.
  intros h a. induction m as [|m IH]; intros b; [reflexivity|]. cbn [seq map]. rewrite IH. do 3 f_equal. lia.
Qed.

Lemma Sum_list : forall l f, Sum l f =
  (sum_of (map (fun n => fst (f (Z.of_nat n))) (seq 0 (2 ^ l))), sum_of (map (fun n => snd (f (Z.of_nat n))) (seq 0 (2 ^ l)))).
Proof.
  induction l as [|l IH]; intros f.
  - cbn. destruct (f 0%Z) as [a b]. cbn [fst snd]. f_equal; ring.
  - cbn [Sum]. rewrite Sum_add, !IH. replace (2 ^ S l)%nat with (2 ^ l + 2 ^ l)%nat by (cbn [Nat.pow]; lia).
    rewrite seq_app, !map_app, !sum_of_app. cbn [Nat.add]. unfold cadd. cbn [fst snd].
    assert (Sh : forall (g : complex -> R), map (fun n => g (f (2 ^ Z.of_nat l + Z.of_nat n)%Z)) (seq 0 (2 ^ l)) =
                                 map (fun n => g (f (Z.of_nat n))) (seq (2 ^ l) (2 ^ l))).
    { intros g. replace (2 ^ l)%nat with (2 ^ l + 0)%nat at 2 by lia. rewrite <- map_seq_shift.
      apply map_ext. intros n. do 2 f_equal. rewrite Nat2Z.inj_add, of_nat_pow. reflexivity. }
    rewrite !Sh. reflexivity.
Qed.

Notation sig := (nz (dft0 rops)).

Lemma pl_joined : forall x, pl rops x = joined (sig x).
Proof. reflexivity. Qed.

Lemma sum_of_ext : forall (f g : nat -> R) l, (forall n, In n l -> f n = g n) -> sum_of (map f l) = sum_of (map g l).
Proof. intros f g l H. f_equal. now apply map_ext_in. Qed.

Lemma spectrum_list : forall l x k, length x = (2 ^ S l)%nat ->
  spectrum l (sig x) (Z.of_nat k) = (dft_re x k, dft_im x k).
Proof.
  intros l x k L. unfold spectrum, dft, dft_re, dft_im. rewrite Sum_list, L.
  f_equal; apply sum_of_ext; intros n _; unfold cmul, real, W, unit, phase; cbn [fst snd]; rewrite Rmult_0_l;
    unfold nz; rewrite Nat2Z.id; change (dft0 rops) with 0; rewrite <- of_nat_pow, mult_IZR, <- !INR_IZR_INZ;
    replace (2 * PI * (INR n * INR k)) with (2 * PI * INR k * INR n) by ring; ring.
Qed.

Lemma nth_pairs : forall (f g : nat -> R) m a i d, (i < m)%nat ->
  nth (2 * i) (flat_map (fun k => [f k; g k]) (seq a m)) d = f (a + i)%nat /\
  nth (S (2 * i)) (flat_map (fun k => [f k; g k]) (seq a m)) d = g (a + i)%nat.
Proof.
  intros f g. induction m as [|m IH]; intros a i d H; [lia|]. cbn [seq flat_map app]. destruct i as [|i].
  - cbn [Nat.mul Nat.add nth]. now rewrite Nat.add_0_r.
  - replace (2 * S i)%nat with (S (S (2 * i))) by lia. cbn [nth]. destruct (IH (S a) i d ltac:(lia)) as [E1 E2].
    cbn [nth] in *. rewrite E1, E2. split; f_equal; lia.
Qed.

Lemma pairs_length : forall (f g : nat -> R) l, length (flat_map (fun k => [f k; g k]) l) = (2 * length l)%nat.
Proof. intros f g. induction l as [|a l IH]; [reflexivity|]. cbn [flat_map app length]. rewrite IH. cbn [length]. lia. Qed.

Lemma half_pow : forall l, (2 ^ S l / 2 = 2 ^ l)%nat.
Proof. intros l. rewrite Nat.pow_succ_r', Nat.mul_comm. apply Nat.div_mul. lia. Qed.

Lemma pow_nat_pos : forall l, (0 < 2 ^ l)%nat.
Proof. intros l. apply Nat.neq_0_lt_0, Nat.pow_nonzero. lia. Qed.

Lemma packed_length : forall l x, length x = (2 ^ S l)%nat -> length (packed_dft x) = length x.
Proof.
  intros l x L. unfold packed_dft. rewrite app_length, pairs_length, seq_length, L, half_pow. cbn [length Nat.pow].
  pose proof (pow_nat_pos l). lia.
Qed.

Lemma packed_list : forall l x k, length x = (2 ^ S l)%nat -> (0 <= k < 2 ^ Z.of_nat l)%Z ->
  pl rops (packed_dft x) k = packed l (sig x) k.
Proof.
  intros l x k L K. unfold packed. rewrite <- of_nat_pow.
  replace k with (Z.of_nat (Z.to_nat k)) by lia. set (i := Z.to_nat k). rewrite <- of_nat_pow in K.
  change (spectrum l (sig x) 0) with (spectrum l (sig x) (Z.of_nat 0)).
  rewrite !(spectrum_list l x) by exact L.
  unfold pl, nz. change (dft0 rops) with 0. replace (Z.to_nat (2 * Z.of_nat i)) with (2 * i)%nat by lia.
  replace (Z.to_nat (2 * Z.of_nat i + 1)) with (S (2 * i)) by lia. unfold packed_dft. rewrite L, half_pow.
  destruct (Z.eqb_spec (Z.of_nat i) 0) as [E|N].
  - assert (i = 0%nat) as -> by lia. reflexivity.
  - replace (2 * i)%nat with (S (S (2 * (i - 1)))) by lia. cbn [app nth].
    destruct (nth_pairs (dft_re x) (dft_im x) (2 ^ l - 1) 1 (i - 1) 0 ltac:(lia)) as [E1 E2].
    cbn [nth] in E2. rewrite E1, E2. replace (1 + (i - 1))%nat with i by lia. reflexivity.
Qed.

Theorem forward_list : forall l f x buffer, (1 <= l)%nat -> ready rops rtrig l f ->
  length x = (2 ^ S l)%nat -> (2 ^ l <= length buffer)%nat ->
  exists buffer', compute rops rtrig f x (lenZ x) true buffer (lenZ buffer) = Ok (packed_dft x, buffer') /\
    length buffer' = length buffer.
Proof.
  intros l f x buffer L1 R L B.
  assert (Lz : lenZ x = (2 * 2 ^ Z.of_nat l)%Z) by (unfold lenZ; rewrite L, of_nat_pow, pow2_S; reflexivity).
  assert (Bz : (2 ^ Z.of_nat l <= lenZ buffer)%Z) by (unfold lenZ; rewrite <- of_nat_pow; lia).
  destruct (compute_ok rops rtrig l f true x buffer L1 R Lz Bz) as [y [b (E & Ly & Lb & V)]].
  exists b. split; [|unfold lenZ in Lb; lia]. rewrite E. do 2 f_equal.
  apply (pl_ext rops _ _ (2 ^ Z.of_nat l)); [lia|unfold lenZ in *; rewrite (packed_length l x L); lia|].
  intros k K. rewrite V by exact K. rewrite (packed_list l x k L K). rewrite pl_joined. now apply forward_packed.
Qed.

Lemma backward_ext : forall l x x' k, (0 <= k < 2 ^ Z.of_nat l)%Z -> (forall n, (0 <= n < 2 ^ Z.of_nat l)%Z -> x n = x' n) ->
  backward_of rops rtrig l x k = backward_of rops rtrig l x' k.
Proof.
  intros l x x' k K H. unfold backward_of. pose proof (pow2_pos l).
  rewrite (transform_ext rops rtrig l false _ (fun k0 => if (k0 =? 0)%Z
     then (t_halve rtrig (fst (real_step rops rtrig (2 ^ Z.of_nat l) (root_of rtrig (2 ^ Z.of_nat l * 2) 1) (f_int rops (-1), f_zero rops) x' 0)),
           t_halve rtrig (snd (real_step rops rtrig (2 ^ Z.of_nat l) (root_of rtrig (2 ^ Z.of_nat l * 2) 1) (f_int rops (-1), f_zero rops) x' 0)))
     else real_step rops rtrig (2 ^ Z.of_nat l) (root_of rtrig (2 ^ Z.of_nat l * 2) 1) (f_int rops (-1), f_zero rops) x' k0) k); [reflexivity|].
  intros n N. cbv beta. rewrite (real_step_ext rops rtrig _ _ _ x x' 0) by (try lia; exact H).
  rewrite (real_step_ext rops rtrig _ _ _ x x' n) by (try lia; exact H). reflexivity.
Qed.

Theorem backward_list : forall l f x buffer, (1 <= l)%nat -> ready rops rtrig l f ->
  length x = (2 ^ S l)%nat -> (2 ^ l <= length buffer)%nat ->
  exists buffer', compute rops rtrig f (packed_dft x) (lenZ (packed_dft x)) false buffer (lenZ buffer) =
    Ok (map (Rmult (INR (length x))) x, buffer') /\ length buffer' = length buffer.
Proof.
  intros l f x buffer L1 R L B.
  assert (Lz : lenZ (packed_dft x) = (2 * 2 ^ Z.of_nat l)%Z)
    by (unfold lenZ; rewrite (packed_length l x L), L, of_nat_pow, pow2_S; reflexivity).
  assert (Bz : (2 ^ Z.of_nat l <= lenZ buffer)%Z) by (unfold lenZ; rewrite <- of_nat_pow; lia).
  destruct (compute_ok rops rtrig l f false (packed_dft x) buffer L1 R Lz Bz) as [y [b (E & Ly & Lb & V)]].
  exists b. split; [|unfold lenZ in Lb; lia]. rewrite E. do 2 f_equal.
  apply (pl_ext rops _ _ (2 ^ Z.of_nat l)); [lia|unfold lenZ in *; rewrite map_length; rewrite (packed_length l x L) in Lz; exact Lz|].
  intros k K. rewrite V by exact K. rewrite (backward_ext l _ (packed l (sig x)) k K) by (intros n N; now apply packed_list).
  rewrite backward_signal by exact K. rewrite L.
  assert (M : forall i, (0 <= i)%Z -> sig (map (Rmult (INR (2 ^ S l))) x) i = INR (2 ^ S l) * sig x i).
  { intros i _. unfold nz. change (dft0 rops) with 0. generalize (Z.to_nat i) (INR (2 ^ S l)). clear. intros n c. revert n.
    induction x as [|a x IH]; intros n; destruct n; cbn [map nth]; try ring. apply IH. }
  unfold pl. rewrite !M by lia. unfold scaled, joined. cbn [fst snd]. rewrite INR_IZR_INZ, of_nat_pow. reflexivity.
Qed.
