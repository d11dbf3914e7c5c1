(** Rounding of quotients to the nearest whole number, ties to even. *)
From Coq Require Import ZArith Bool Lia Floats.SpecFloat.
Open Scope Z_scope.

(** * Digits *)

Lemma digits_pos : forall p, 2 ^ (Zpos (digits2_pos p) - 1) <= Zpos p < 2 ^ Zpos (digits2_pos p).
Proof.
  induction p as [p IH|p IH|]; cbn [digits2_pos]; [| |cbn; lia];
    rewrite Pos2Z.inj_succ; unfold Z.succ;
    replace (Zpos (digits2_pos p) + 1 - 1) with (Zpos (digits2_pos p) - 1 + 1) by lia;
    rewrite !Z.pow_add_r by lia; change (2 ^ 1) with 2; lia.
Qed.

Lemma digits_bounds : forall z, 0 < z -> 2 ^ (Zdigits2 z - 1) <= z < 2 ^ Zdigits2 z.
Proof. intros [|p|p] H; try lia. apply digits_pos. Qed.

Lemma digits_positive : forall z, 0 < z -> 0 < Zdigits2 z.
Proof. intros [|p|p] H; cbn; lia. Qed.

Lemma digits_nonneg : forall z, 0 <= Zdigits2 z.
Proof. intros [|p|p]; cbn; lia. Qed.

Lemma digits_unique : forall z d, 0 < z -> 2 ^ (d - 1) <= z < 2 ^ d -> Zdigits2 z = d.
Proof.
  intros z d H (L & U). destruct (digits_bounds z H) as (L' & U').
  assert (0 <= d). { destruct (Z_lt_le_dec d 0); [rewrite (Z.pow_neg_r 2 d) in U by lia; lia|assumption]. }
  pose proof (digits_positive z H). 
  assert (Zdigits2 z - 1 < d) by (apply (Z.pow_lt_mono_r_iff 2); lia).
  assert (d - 1 < Zdigits2 z) by (apply (Z.pow_lt_mono_r_iff 2); lia). lia.
Qed.

Lemma digits_above : forall z d, 0 <= z -> 0 <= d -> z < 2 ^ d -> Zdigits2 z <= d.
Proof.
  intros z d H D U. destruct (Z.eq_dec z 0) as [->|N]; [cbn; lia|].
  destruct (digits_bounds z ltac:(lia)) as (L & _). pose proof (digits_positive z ltac:(lia)).
  assert (Zdigits2 z - 1 < d) by (apply (Z.pow_lt_mono_r_iff 2); lia). lia.
Qed.

Lemma digits_below : forall z d, 0 < z -> 2 ^ d <= z -> d < Zdigits2 z.
Proof.
  intros z d H U. destruct (digits_bounds z H) as (_ & L). pose proof (digits_positive z H).
  apply (Z.pow_lt_mono_r_iff 2); lia.
Qed.

Lemma digits_mono : forall a b, 0 <= a <= b -> Zdigits2 a <= Zdigits2 b.
Proof.
  intros a b H. destruct (Z.eq_dec b 0) as [->|]; [replace a with 0 by lia; lia|].
  apply digits_above; [lia|apply digits_nonneg|]. pose proof (digits_bounds b ltac:(lia)). lia.
Qed.

Lemma pow_pos : forall k, 0 <= k -> 0 < 2 ^ k.
Proof. intros. apply Z.pow_pos_nonneg; lia. Qed.

Lemma pow_add : forall a b, 0 <= a -> 0 <= b -> 2 ^ (a + b) = 2 ^ a * 2 ^ b.
Proof. intros. apply Z.pow_add_r; assumption. Qed.

(** * The nearest whole number *)

Definition rne (n m : Z) : Z :=
  let q := n / m in
  match 2 * (n mod m) ?= m with
  | Lt => q
  | Eq => if Z.even q then q else q + 1
  | Gt => q + 1
  end.

Lemma rne_near : forall n m, 0 < m -> 2 * n - m <= 2 * (rne n m * m) <= 2 * n + m.
Proof.
  intros n m M. unfold rne. pose proof (Z.div_mod n m ltac:(lia)) as E. pose proof (Z.mod_pos_bound n m M) as B.
  destruct (2 * (n mod m) ?= m) eqn:C.
  - apply Z.compare_eq_iff in C. destruct (Z.even _); nia.
  - rewrite Z.compare_lt_iff in C. nia.
  - rewrite Z.compare_gt_iff in C. nia.
Qed.

Lemma rne_scale : forall n m c, 0 < m -> 0 < c -> rne (n * c) (m * c) = rne n m.
Proof.
  intros n m c M C. unfold rne. rewrite Z.div_mul_cancel_r by lia. rewrite Z.mul_mod_distr_r by lia.
  replace (2 * (n mod m * c)) with (2 * (n mod m) * c) by ring.
  rewrite <- (Zmult_compare_compat_r (2 * (n mod m)) m c) by lia. reflexivity.
Qed.

Lemma rne_exact : forall n m, 0 < m -> rne (n * m) m = n.
Proof.
  intros n m M. unfold rne. rewrite Z.div_mul, Z.mod_mul by lia. destruct (2 * 0 ?= m) eqn:C; [|reflexivity|].
  - apply Z.compare_eq_iff in C. lia.
  - rewrite Z.compare_gt_iff in C. lia.
Qed.

(** Larger quotients do not give smaller numbers. *)
Lemma rne_mono : forall n m n' m', 0 < m -> 0 < m' -> n * m' <= n' * m -> rne n m <= rne n' m'.
Proof.
  intros n m n' m' M M' H.
  destruct (Z_le_gt_dec (rne n m) (rne n' m')) as [|G]; [assumption|exfalso].
  (* on a common denominator *)
  rewrite <- (rne_scale n m m') in G by lia. rewrite <- (rne_scale n' m' m) in G by lia.
  rewrite (Z.mul_comm m' m) in G. set (a := n * m') in *. set (b := n' * m) in *. set (k := m * m') in *.
  assert (K : 0 < k) by (unfold k; nia). clearbody a b k. clear M M' n m n' m'.
  assert (a < b \/ a = b) as [L| ->] by lia; [|lia].
  pose proof (rne_near a k K) as Na. pose proof (rne_near b k K) as Nb.
  (* the only way is a tie on both sides of the same middle *)
  assert (rne b k * k + k <= rne a k * k) by nia. lia.
Qed.

Lemma rne_nonneg : forall n m, 0 < m -> 0 <= n -> 0 <= rne n m.
Proof.
  intros n m M N. pose proof (Z.div_pos n m N M). unfold rne. destruct (_ ?= _); [destruct (Z.even _)| |]; lia.
Qed.

Lemma rne_le : forall n m c, 0 < m -> n <= c * m -> rne n m <= c.
Proof. intros n m c M H. rewrite <- (rne_exact c m M). apply rne_mono; nia. Qed.

Lemma rne_ge : forall n m c, 0 < m -> c * m <= n -> c <= rne n m.
Proof. intros n m c M H. rewrite <- (rne_exact c m M) at 1. apply rne_mono; nia. Qed.

(** * Shifting with a rest *)

(** [mrs] is [n / m] with what is left of it. *)
Definition rep (mrs : shr_record) (n m : Z) : Prop :=
  0 <= n /\ 0 < m /\ shr_m mrs = n / m /\
  match shr_r mrs, shr_s mrs with
  | false, false => n mod m = 0
  | false, true => 0 < 2 * (n mod m) < m
  | true, false => 2 * (n mod m) = m
  | true, true => m < 2 * (n mod m)
  end.

Lemma rep_exact : forall n, 0 <= n -> rep (Build_shr_record n false false) n 1.
Proof. intros n N. split; [exact N|]. split; [lia|]. cbn. split; [now rewrite Z.div_1_r|apply Z.mod_1_r]. Qed.

Ltac Zify.zify_post_hook ::= Z.div_mod_to_equations.

Lemma rep_shift : forall mrs n m, rep mrs n m -> rep (shr_1 mrs) n (2 * m).
Proof.
  intros [z r s] n m (N & M & Q & R). cbn [shr_m shr_r shr_s] in *.
  split; [exact N|]. split; [lia|].
  assert (D : n / (2 * m) = z / 2) by (rewrite Q, Z.mul_comm, Z.div_div by lia; reflexivity).
  assert (E : n mod (2 * m) = z mod 2 * m + n mod m).
  { rewrite (Z.mul_comm 2 m). rewrite Z.rem_mul_r by lia. rewrite <- Q. ring. }
  pose proof (Z.mod_pos_bound n m M) as B. assert (Z0 : 0 <= z) by (rewrite Q; apply Z.div_pos; lia).
  rewrite D, E. clear D E. unfold shr_1.
  destruct z as [|[p|p|]|p]; [| | | |lia]; cbn [shr_m shr_r shr_s].
  - change (0 mod 2) with 0. split; [reflexivity|]. destruct r, s; cbn [orb]; lia.
  - replace (Z.pos p~1 mod 2) with 1 by lia. split; [lia|]. destruct r, s; cbn [orb]; lia.
  - replace (Z.pos p~0 mod 2) with 0 by lia. split; [lia|]. destruct r, s; cbn [orb]; lia.
  - change (1 mod 2) with 1. split; [reflexivity|]. destruct r, s; cbn [orb]; lia.
Qed.

Lemma iter_shift : forall p mrs n m, rep mrs n m -> rep (iter_pos shr_1 p mrs) n (m * 2 ^ Zpos p).
Proof.
  induction p as [p IH|p IH|]; intros mrs n m R; cbn [iter_pos].
  - replace (m * 2 ^ Z.pos p~1) with (2 * m * 2 ^ Z.pos p * 2 ^ Z.pos p).
    + apply IH, IH, rep_shift, R.
    + replace (Z.pos p~1) with (Z.pos p + Z.pos p + 1) by lia. rewrite !Z.pow_add_r by lia. change (2 ^ 1) with 2. ring.
  - replace (m * 2 ^ Z.pos p~0) with (m * 2 ^ Z.pos p * 2 ^ Z.pos p).
    + apply IH, IH, R.
    + replace (Z.pos p~0) with (Z.pos p + Z.pos p) by lia. rewrite Z.pow_add_r by lia. ring.
  - change (2 ^ 1) with 2. rewrite Z.mul_comm. apply rep_shift, R.
Qed.

Lemma rep_round : forall mrs n m, rep mrs n m -> round_nearest_even (shr_m mrs) (loc_of_shr_record mrs) = rne n m.
Proof.
  intros [z r s] n m (N & M & Q & R). cbn [shr_m shr_r shr_s] in *. unfold rne. rewrite <- Q.
  destruct (2 * (n mod m) ?= m) eqn:C.
  - apply Z.compare_eq_iff in C. destruct r, s; cbn [loc_of_shr_record round_nearest_even]; try lia; reflexivity.
  - rewrite Z.compare_lt_iff in C. destruct r, s; cbn [loc_of_shr_record round_nearest_even]; try lia; reflexivity.
  - rewrite Z.compare_gt_iff in C. destruct r, s; cbn [loc_of_shr_record round_nearest_even]; try lia; reflexivity.
Qed.

Lemma rep_of_loc : forall mrs, shr_record_of_loc (shr_m mrs) (loc_of_shr_record mrs) = mrs.
Proof. intros [z [|] [|]]; reflexivity. Qed.
