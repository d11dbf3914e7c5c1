(** The calls of the Fourier transform, in any arithmetic. *)
From Coq Require Import ZArith List Bool Lia.
From Verif.Base Require Import Prelude Lemmas.
From Verif.Model Require Import Arith Vector Matrix Srfft.
From Verif.Proof Require Import Loop Matrix SrfftSteps SrfftTable.
Import ListNotations.
Open Scope Z_scope.
Ltac Zify.zify_post_hook ::= Z.div_mod_to_equations.

(** * Which index of a pair is swapped *)

Section Pairs.
Variable l : nat.
Let h := (l / 2)%nat.
Let g := upper l.
Let n := 2 ^ Z.of_nat h.

Definition first_of_pair (k : Z) : Prop := k / n < rev_bits g (k mod n).

Lemma halves : l = (h + g)%nat /\ (g = h \/ g = S h).
Proof.
  unfold g, h, upper. pose proof (Nat.div_mod_eq l 2) as D0. pose proof (Nat.mod_upper_bound l 2 ltac:(lia)) as D1. lia.
Qed.

Lemma rev_low : forall o, 0 <= o < n -> rev_bits h o * 2 ^ Z.of_nat g = n * rev_bits g o.
Proof.
  intros o H. destruct halves as [_ [E|E]]; rewrite E.
  - fold n. lia.
  - rewrite rev_high0 by exact H. rewrite pow2_S. fold n. lia.
Qed.

Lemma rev_index : forall o k, 0 <= o < n -> rev_bits l (o + n * k) = n * rev_bits g o + rev_bits g k.
Proof.
  intros o k H. rewrite (proj1 halves). unfold n. rewrite rev_split by exact H. rewrite rev_low by exact H. reflexivity.
Qed.

Lemma size_eq : 2 ^ Z.of_nat l = n * 2 ^ Z.of_nat g.
Proof. rewrite (proj1 halves) at 1. rewrite Nat2Z.inj_add, Z.pow_add_r by lia. reflexivity. Qed.

Lemma n_pos : 0 < n.
Proof. apply pow2_pos. Qed.

Lemma split_index : forall o k, 0 <= o < n -> (o + n * k) / n = k /\ (o + n * k) mod n = o.
Proof.
  intros o k H. replace (o + n * k) with (k * n + o) by ring. split.
  - rewrite Z.div_add_l by lia. rewrite Z.div_small by lia. lia.
  - rewrite Z.add_comm, Z_mod_plus_full. apply Z.mod_small. lia.
Qed.

(** Both parts of the reversed index. *)
Lemma rev_parts : forall o k, 0 <= o < n -> 0 <= k < 2 ^ Z.of_nat g ->
  let i := o + n * k in
  (first_of_pair i -> ~ first_of_pair (rev_bits l i)) /\
  (~ first_of_pair i -> ~ first_of_pair (rev_bits l i) -> rev_bits l i = i).
Proof.
  intros o k Ho Hk i. unfold first_of_pair. pose proof (split_index o k Ho) as [E1 E2]. fold i in E1, E2. rewrite E1, E2.
  unfold i. rewrite rev_index by exact Ho. pose proof n_pos as Np.
  destruct halves as [_ [E|E]].
  - pose proof (rev_range h k) as Rk. pose proof (rev_range h o) as Ro. fold n in Rk, Ro. rewrite E in *.
    pose proof (split_index (rev_bits h k) (rev_bits h o) Rk) as [E3 E4].
    rewrite (Z.add_comm (n * rev_bits h o)), E3, E4. fold n in Hk. rewrite (rev_invol h k) by exact Hk. split; [lia|].
    intros A B. assert (A' : k = rev_bits h o) by lia. rewrite A' at 1. rewrite (rev_invol h o) by exact Ho. now rewrite A'.
  - pose proof (rev_range h (k / 2)) as Rk. pose proof (rev_range h o) as Ro. fold n in Rk, Ro. rewrite E in *. rewrite pow2_S in Hk. fold n in Hk.
    rewrite (rev_high0 h o) by exact Ho. cbn [rev_bits]. fold n.
    replace (n * (2 * rev_bits h o) + (k mod 2 * n + rev_bits h (k / 2))) with
      (rev_bits h (k / 2) + n * (2 * rev_bits h o + k mod 2)) by ring.
    pose proof (split_index (rev_bits h (k / 2)) (2 * rev_bits h o + k mod 2) Rk) as [E3 E4]. rewrite E3, E4.
    change (rev_bits h (k / 2) mod 2 * n + rev_bits h (rev_bits h (k / 2) / 2)) with (rev_bits (S h) (rev_bits h (k / 2))).
    rewrite rev_high0 by exact Rk. rewrite (rev_invol h (k / 2)) by (unfold n in Hk; lia). split; [lia|].
    intros A B. assert (A' : k / 2 = rev_bits h o) by lia. rewrite A' at 1. rewrite (rev_invol h o) by exact Ho.
    rewrite <- A'. f_equal. f_equal. lia.
Qed.

Lemma split_all : forall k, 0 <= k < 2 ^ Z.of_nat l ->
  k = k mod n + n * (k / n) /\ 0 <= k mod n < n /\ 0 <= k / n < 2 ^ Z.of_nat g.
Proof.
  intros k H. pose proof n_pos. rewrite size_eq in H. pose proof (Z.div_mod k n ltac:(lia)). pose proof (Z.mod_pos_bound k n ltac:(lia)).
  split; [lia|]. split; [lia|]. split; [apply Z.div_pos; lia|]. apply Z.div_lt_upper_bound; lia.
Qed.

Lemma pair_once : forall k, 0 <= k < 2 ^ Z.of_nat l -> first_of_pair k -> ~ first_of_pair (rev_bits l k).
Proof. intros k H. destruct (split_all k H) as (E & A & B). rewrite E. apply rev_parts; assumption. Qed.

Lemma pair_fixed : forall k, 0 <= k < 2 ^ Z.of_nat l -> ~ first_of_pair k -> ~ first_of_pair (rev_bits l k) -> rev_bits l k = k.
Proof. intros k H. destruct (split_all k H) as (E & A & B). rewrite E. apply rev_parts; assumption. Qed.

(** * The permutation *)
Context {F : Type}.
Variable d : F.
Variable x0 : list F.

(** [x] is [x0] with the pairs in [P] swapped. *)
Definition swapped (P : Z -> Prop) (x : list F) : Prop :=
  lenZ x = 2 ^ Z.of_nat l /\
  forall k, 0 <= k < 2 ^ Z.of_nat l ->
    (P k \/ P (rev_bits l k) -> nz d x k = nz d x0 (rev_bits l k)) /\
    (~ P k -> ~ P (rev_bits l k) -> nz d x k = nz d x0 k).

Lemma swap_step : forall P P' x i, swapped P x -> 0 <= i < 2 ^ Z.of_nat l ->
  ~ P i -> ~ P (rev_bits l i) -> (forall k, P' k <-> P k \/ k = i) ->
  exists x', swap x i (rev_bits l i) = Ok x' /\ swapped P' x'.
Proof.
  intros P P' x i [L V] Hi N1 N2 E. pose proof (rev_range l i) as Ri.
  destruct (swap_ok d x i (rev_bits l i) ltac:(lia) ltac:(lia)) as [x' (-> & L' & V')].
  exists x'. split; [reflexivity|]. split; [lia|]. intros k Hk. rewrite V' by lia.
  destruct (Z.eqb_spec k i) as [->|Ni]; [|destruct (Z.eqb_spec k (rev_bits l i)) as [->|Nr]].
  - split; [|intros A; exfalso; apply A, E; auto]. intros _. apply V; [lia|exact N2|]. rewrite rev_invol by lia. exact N1.
  - rewrite rev_invol by lia. split; [|intros _ A; exfalso; apply A, E; auto]. intros _. apply V; assumption.
  - assert (rev_bits l k <> i) by (intros A; apply Nr; rewrite <- A; symmetry; apply rev_invol; lia).
    rewrite !E. destruct (V k Hk) as [A B]. split; [intros Q; apply A|intros Q1 Q2; apply B]; tauto.
Qed.

Lemma bit_reverse_ok : forall seeds, lenZ x0 = 2 ^ Z.of_nat l ->
  lenZ seeds = 2 ^ Z.of_nat g -> (forall i, 0 <= i < 2 ^ Z.of_nat g -> getZ seeds i = Ok (rev_bits g i)) ->
  exists x, bit_reverse seeds (Z.of_nat l) x0 = Ok x /\ lenZ x = 2 ^ Z.of_nat l /\
    forall k, 0 <= k < 2 ^ Z.of_nat l -> nz d x k = nz d x0 (rev_bits l k).
Proof.
  intros seeds L0 Ls Vs. unfold bit_reverse.
  assert (En : 2 ^ Z.shiftr (Z.of_nat l) 1 = n).
  { unfold n, h. rewrite Nat2Z.inj_div. rewrite Z.shiftr_div_pow2 by lia. reflexivity. }
  rewrite En. cbv zeta. pose proof n_pos as Np.
  assert (Ng : n <= 2 ^ Z.of_nat g).
  { destruct halves as [_ [E|E]]; rewrite E; [|rewrite pow2_S]; fold n; lia. }
  pose (P o m k := first_of_pair k /\ (k mod n < o \/ k mod n = o /\ k / n < m)).
  assert (Rl : forall i, 0 <= i < 2 ^ Z.of_nat l -> first_of_pair i -> forall o m, ~ P o m (rev_bits l i)).
  { intros i Hi Fi o m [Q _]. now apply (pair_once i Hi Fi). }
  destruct (for_up_inv (list F) (fun o => swapped (P o 0))
    (fun x off => seed <- getZ seeds off ;;
      x <- swap x off (n * seed) ;;
      for_up 1 seed (fun x gno => r <- getZ seeds gno ;; swap x (off + n * gno) (n * seed + r)) x)
    1 n x0 ltac:(lia)) as [x (-> & Lx & Vx)].
  - split; [exact L0|]. intros k Hk. split; [|reflexivity].
    assert (Q : forall k, 0 <= k < 2 ^ Z.of_nat l -> ~ P 1 0 k).
    { intros j Hj [Q1 Q2]. destruct (split_all j Hj) as (_ & A & B). unfold first_of_pair in Q1.
      assert (Z0 : j mod n = 0) by lia. rewrite Z0 in Q1.
      assert (R0 : rev_bits g 0 = 0).
      { clear. induction g as [|m IH]; [reflexivity|]. cbn [rev_bits]. change (0 / 2) with 0. rewrite IH. reflexivity. }
      lia. }
    intros [Q1|Q1]; exfalso; [apply (Q k Hk)|apply (Q (rev_bits l k) (rev_range _ _))]; exact Q1.
  - intros o x Ho Sx. rewrite Vs by lia. cbn [bind]. cbv zeta.
    pose proof (rev_range g o) as Rg.
    assert (R1 : 1 <= rev_bits g o).
    { destruct (Z.eq_dec (rev_bits g o) 0) as [E|]; [|lia].
      pose proof (rev_invol g o ltac:(lia)) as I. rewrite E in I.
      assert (R0 : rev_bits g 0 = 0).
      { clear. induction g as [|m IH]; [reflexivity|]. cbn [rev_bits]. change (0 / 2) with 0. rewrite IH. reflexivity. }
      lia. }
    (* One step of the inner loop. *)
    assert (St : forall m x, 0 <= m < rev_bits g o -> swapped (P o m) x ->
              exists x', swap x (o + n * m) (n * rev_bits g o + rev_bits g m) = Ok x' /\ swapped (P o (m + 1)) x').
    { intros m y Hm Sy. rewrite <- rev_index by lia. destruct (split_index o m ltac:(lia)) as [E1 E2].
      assert (Hi : 0 <= o + n * m < 2 ^ Z.of_nat l).
      { rewrite size_eq. split; [apply Z.add_nonneg_nonneg; [lia|apply Z.mul_nonneg_nonneg; lia]|].
        apply Z.lt_le_trans with (n + n * m); [lia|]. replace (n + n * m) with (n * (m + 1)) by ring.
        apply Z.mul_le_mono_nonneg_l; lia. }
      assert (Fi : first_of_pair (o + n * m)) by (unfold first_of_pair; rewrite E1, E2; lia).
      apply (swap_step (P o m) (P o (m + 1)) y (o + n * m) Sy Hi).
      - intros [_ Q]. rewrite E1, E2 in Q. lia.
      - now apply Rl.
      - intros k. unfold P. split.
        + intros [Q1 Q2]. destruct Q2 as [Q2|[Q2 Q3]]; [left; split; [exact Q1|auto]|].
          destruct (Z.eq_dec (k / n) m) as [Ek|Nk]; [right|left; split; [exact Q1|right; lia]].
          rewrite (Z.div_mod k n) by lia. rewrite Ek, Q2. ring.
        + intros [[Q1 Q2]|Q]; [split; [exact Q1|lia]|]. subst k. split; [exact Fi|]. rewrite E1, E2. lia. }
    destruct (St 0 x ltac:(lia) Sx) as [x1 [E1 S1]].
    assert (R0 : rev_bits g 0 = 0).
    { clear. induction g as [|m IH]; [reflexivity|]. cbn [rev_bits]. change (0 / 2) with 0. rewrite IH. reflexivity. }
    rewrite R0, Z.mul_0_r, !Z.add_0_r in E1. rewrite E1. cbn [bind].
    destruct (for_up_inv (list F) (fun m => swapped (P o m))
      (fun x gno => r <- getZ seeds gno ;; swap x (o + n * gno) (n * rev_bits g o + r))
      1 (rev_bits g o) x1 ltac:(lia) S1) as [x2 (E2 & S2)].
    + intros m y Hm Sy. rewrite Vs by lia. cbn [bind]. apply St; [lia|exact Sy].
    + exists x2. split; [exact E2|]. destruct S2 as [L2 V2]. split; [exact L2|].
      assert (Q : forall k, 0 <= k < 2 ^ Z.of_nat l -> P (o + 1) 0 k <-> P o (rev_bits g o) k).
      { intros k Hk. destruct (split_all k Hk) as (_ & A1 & A2). unfold P. split.
        - intros [Q1 Q2]. split; [exact Q1|]. destruct (Z.lt_trichotomy (k mod n) o) as [A|[A|A]]; [auto| |].
          + right. split; [exact A|]. unfold first_of_pair in Q1. now rewrite A in Q1.
          + exfalso. lia.
        - intros [Q1 [Q2|[Q2 Q3]]]; (split; [exact Q1|lia]). }
      intros k Hk. pose proof (rev_range l k) as Rk. rewrite !Q by assumption. destruct (V2 k Hk) as [A B]. split; [intros Y; apply A|intros Y1 Y2; apply B]; tauto.
  - exists x. split; [reflexivity|]. split; [exact Lx|]. intros k Hk. destruct (Vx k Hk) as [A B].
    assert (Q : forall j, 0 <= j < 2 ^ Z.of_nat l -> P n 0 j <-> first_of_pair j).
    { intros j Hj. unfold P. destruct (split_all j Hj) as (_ & C1 & C2). split; [tauto|]. intros Y. split; [exact Y|lia]. }
    pose proof (rev_range l k) as Rk. rewrite !Q in A, B by assumption.
    assert (Dk : first_of_pair k \/ ~ first_of_pair k) by (unfold first_of_pair; lia).
    assert (Dr : first_of_pair (rev_bits l k) \/ ~ first_of_pair (rev_bits l k)) by (unfold first_of_pair; lia).
    destruct Dk as [Dk|Dk]; [apply A; auto|]. destruct Dr as [Dr|Dr]; [apply A; auto|].
    rewrite B by assumption. now rewrite pair_fixed.
Qed.
End Pairs.

Section Calls.
Context {F : Type}.
Variable O : fops F.
Variable T : trig_ops F.
Notation complex := (F * F)%type.
Notation nz := (nz (dft0 O)).

Lemma copy_cells_ok : forall b dst b' src n, 0 <= n -> 0 <= dst -> dst + n <= lenZ b -> 0 <= src -> src + n <= lenZ b' ->
  exists c, copy_cells b dst b' src n = Ok c /\ lenZ c = lenZ b /\
    (forall j, 0 <= j < n -> nz c (dst + j) = nz b' (src + j)) /\
    (forall i, 0 <= i -> ~ dst <= i < dst + n -> nz c i = nz b i).
Proof.
  intros b dst b' src n N D1 D2 S1 S2. unfold copy_cells.
  destruct (for_up_inv (list F) (fun k c => lenZ c = lenZ b /\
      (forall j, 0 <= j < k -> nz c (dst + j) = nz b' (src + j)) /\
      (forall i, 0 <= i -> ~ dst <= i < dst + k -> nz c i = nz b i))
    (fun b j => x <- getZ b' (src + j) ;; setZ b (dst + j) x) 0 n b N) as [c (-> & L & V & Fr)].
  - split; [reflexivity|]. split; [intros; lia|reflexivity].
  - intros k c K (L & V & Fr). rewrite (getZ_nz (dft0 O)) by lia. cbn [bind]. rewrite setZ_ok by lia.
    eexists. split; [reflexivity|]. split; [now rewrite lenZ_upd|]. split.
    + intros j J. rewrite nz_upd by lia. destruct (Z.eqb_spec (dst + k) (dst + j)); [f_equal; lia|]. apply V. lia.
    + intros i I J. rewrite nz_upd by lia. destruct (Z.eqb_spec (dst + k) i); [lia|]. apply Fr; lia.
  - exists c. auto.
Qed.

(** The complex number at place [k] of the interleaved data. *)
Definition pl (x : list F) (k : Z) : complex := (nz x (2 * k), nz x (2 * k + 1)).

Lemma pl_ext : forall x x' n, lenZ x = 2 * n -> lenZ x' = 2 * n -> (forall k, 0 <= k < n -> pl x k = pl x' k) -> x = x'.
Proof.
  intros x x' n L L' H. apply (nz_ext (dft0 O)); [lia|]. intros i I.
  specialize (H (i / 2) ltac:(lia)). unfold pl in H. injection H as H1 H2.
  assert (i = 2 * (i / 2) \/ i = 2 * (i / 2) + 1) as [E|E] by lia; rewrite E; assumption.
Qed.

Lemma separate_ok : forall n x buffer, 0 <= n -> lenZ x = 2 * n -> n <= lenZ buffer ->
  exists y buffer', separate n x buffer = Ok (y, buffer') /\ lenZ y = 2 * n /\ lenZ buffer' = lenZ buffer /\
    forall k, 0 <= k < n -> (nz y k, nz y (n + k)) = pl x k.
Proof.
  intros n x buffer N L B. unfold separate.
  match goal with |- context [for_up 0 n ?f _] => set (body := f) end.
  destruct (for_up_inv (list F * list F) (fun i '(y, b) => lenZ y = 2 * n /\ lenZ b = lenZ buffer /\
      (forall j, 0 <= j < i -> nz y j = nz x (2 * j) /\ nz b j = nz x (2 * j + 1)) /\
      (forall j, i <= j -> nz y j = nz x j)) body 0 n (x, buffer) N) as [[y b] (-> & Ly & Lb & V & Fr)].
  - split; [exact L|]. split; [reflexivity|]. split; [intros; lia|reflexivity].
  - intros i [y b] I (Ly & Lb & V & Fr). unfold body.
    rewrite (getZ_nz (dft0 O)) by lia. cbn [bind]. rewrite setZ_ok by lia. cbn [bind].
    rewrite (getZ_nz (dft0 O)) by (rewrite lenZ_upd; lia). cbn [bind]. rewrite setZ_ok by lia. cbn [bind].
    eexists. split; [reflexivity|]. split; [now rewrite lenZ_upd|]. split; [now rewrite lenZ_upd|].
    rewrite (Z.mul_comm i 2), nz_upd by lia. destruct (Z.eqb_spec i (2 * i + 1)); [lia|]. split.
    + intros j J. rewrite !nz_upd by lia. destruct (Z.eqb_spec i j) as [->|Nj].
      * rewrite !Fr by lia. split; reflexivity.
      * apply V. lia.
    + intros j J. rewrite nz_upd by lia. destruct (Z.eqb_spec i j); [lia|]. apply Fr. lia.
  - cbn [bind]. destruct (copy_cells_ok y n b 0 n N N ltac:(lia) ltac:(lia) ltac:(lia)) as [y' (-> & Ly' & V' & Fr')].
    cbn [bind]. exists y', b. split; [reflexivity|]. split; [lia|]. split; [exact Lb|]. intros k K.
    rewrite V' by lia. rewrite Fr' by lia. destruct (V k K) as [-> E]. cbn [Z.add]. rewrite E. reflexivity.
Qed.

Lemma interleave_ok : forall n x buffer, 0 < n -> lenZ x = 2 * n -> n <= lenZ buffer ->
  exists y buffer', interleave n x buffer = Ok (y, buffer') /\ lenZ y = 2 * n /\ lenZ buffer' = lenZ buffer /\
    forall k, 0 <= k < n -> pl y k = (nz x k, nz x (n + k)).
Proof.
  intros n x buffer N L B. unfold interleave.
  destruct (copy_cells_ok buffer 0 x n n ltac:(lia) ltac:(lia) ltac:(lia) ltac:(lia) ltac:(lia)) as [b (-> & Lb & Vb & _)].
  cbn [bind]. match goal with |- context [for_down (n - 1) 0 ?f _] => set (body := f) end.
  destruct (for_down_inv (list F) (fun i y => lenZ y = 2 * n /\
      (forall j, i < j < n -> nz y (2 * j) = nz x j /\ nz y (2 * j + 1) = nz b j) /\
      (forall j, 0 <= j < 2 * (i + 1) -> j < n -> nz y j = nz x j)) body (n - 1) 0 x ltac:(lia)) as [y (-> & Ly & V & Fr)].
  - split; [exact L|]. split; [intros; lia|reflexivity].
  - intros i y I (Ly & V & Fr). unfold body.
    rewrite (getZ_nz (dft0 O)) by lia. cbn [bind]. rewrite setZ_ok by lia. cbn [bind].
    rewrite (getZ_nz (dft0 O)) by lia. cbn [bind]. rewrite setZ_ok by (rewrite lenZ_upd; lia).
    eexists. split; [reflexivity|]. split; [now rewrite !lenZ_upd|]. split.
    + intros j J. rewrite !nz_upd by (rewrite ?lenZ_upd; lia). destruct (Z.eqb_spec (i * 2 + 1) (2 * j)); [lia|].
      destruct (Z.eqb_spec (i * 2) (2 * j)), (Z.eqb_spec (i * 2 + 1) (2 * j + 1)); try lia.
      * assert (j = i) as -> by lia. rewrite Fr by lia. split; reflexivity.
      * destruct (Z.eqb_spec (i * 2) (2 * j + 1)); [lia|]. apply V. lia.
    + intros j J1 J2. rewrite !nz_upd by (rewrite ?lenZ_upd; lia). destruct (Z.eqb_spec (i * 2 + 1) j); [lia|].
      destruct (Z.eqb_spec (i * 2) j); [lia|]. apply Fr; lia.
  - cbn [bind]. rewrite (getZ_nz (dft0 O)) by lia. cbn [bind]. rewrite setZ_ok by lia. cbn [bind].
    eexists _, b. split; [reflexivity|]. split; [now rewrite lenZ_upd|]. split; [lia|]. intros k K. unfold pl.
    rewrite !nz_upd by lia. rewrite <- (Vb k) by lia. destruct (Z.eqb_spec 1 (2 * k)); [lia|]. cbn [Z.add].
    destruct (Z.eq_dec k 0) as [->|Nk].
    + change (2 * 0) with 0. rewrite Fr by lia. reflexivity.
    + destruct (Z.eqb_spec 1 (2 * k + 1)); [lia|]. destruct (V k ltac:(lia)) as [-> ->]. reflexivity.
Qed.

Definition flip (a : complex) : complex := (snd a, fst a).

(** The complex transform of a sequence. *)
Definition transform (l : nat) (forward : bool) (x : Z -> complex) (k : Z) : complex :=
  if forward then fast O T l x (rev_bits l k) else flip (fast O T l (fun n => flip (x n)) (rev_bits l k)).

Lemma complex_fft_ok : forall l f forward re im, (1 <= l)%nat -> ready O T l f ->
  lenZ re = 2 ^ Z.of_nat l -> lenZ im = 2 ^ Z.of_nat l ->
  exists re' im', complex_fft O T f forward re im = Ok (re', im') /\
    lenZ re' = 2 ^ Z.of_nat l /\ lenZ im' = 2 ^ Z.of_nat l /\
    forall k, 0 <= k < 2 ^ Z.of_nat l -> (nz re' k, nz im' k) = transform l forward (fun n => (nz re n, nz im n)) k.
Proof.
  intros l f forward re im L1 (En & El & Tb & Ls & Vs) Lr Li. unfold complex_fft. rewrite El.
  assert (G : forall xr xi, lenZ xr = 2 ^ Z.of_nat l -> lenZ xi = 2 ^ Z.of_nat l ->
    exists yr yi,
      ('(xr, xi) <- recursive O T (S (Z.to_nat (Z.of_nat l))) (s_tab f) 0 (Z.of_nat l) (xr, xi) ;;
       xr <- (if 1 <? Z.of_nat l then bit_reverse (s_brseed f) (Z.of_nat l) xr else Ok xr) ;;
       xi <- (if 1 <? Z.of_nat l then bit_reverse (s_brseed f) (Z.of_nat l) xi else Ok xi) ;;
       Ok (if forward then (xr, xi) else (xi, xr))) = Ok (if forward then (yr, yi) else (yi, yr)) /\
      lenZ yr = 2 ^ Z.of_nat l /\ lenZ yi = 2 ^ Z.of_nat l /\
      forall k, 0 <= k < 2 ^ Z.of_nat l -> (nz yr k, nz yi k) = fast O T l (fun n => (nz xr n, nz xi n)) (rev_bits l k)).
  { intros xr xi Lxr Lxi.
    destruct (recursive_ok O T l (S (Z.to_nat (Z.of_nat l))) (s_tab f) (2 ^ Z.of_nat l) 0 (xr, xi) ltac:(lia) Tb
                ltac:(split; assumption) ltac:(lia) ltac:(lia)) as [[zr zi] (-> & [Wr Wi] & V & _)].
    cbn [bind fst snd] in *.
    assert (V' : forall p, 0 <= p < 2 ^ Z.of_nat l -> (nz zr p, nz zi p) = fast O T l (fun n => (nz xr n, nz xi n)) p) by exact V.
    destruct (Z.ltb_spec 1 (Z.of_nat l)).
    - destruct (bit_reverse_ok l (dft0 O) zr (s_brseed f) Wr Ls Vs) as [yr (-> & Lyr & Vr)]. cbn [bind].
      destruct (bit_reverse_ok l (dft0 O) zi (s_brseed f) Wi Ls Vs) as [yi (-> & Lyi & Vi)]. cbn [bind].
      exists yr, yi. split; [reflexivity|]. split; [exact Lyr|]. split; [exact Lyi|].
      intros k K. rewrite Vr, Vi by exact K. apply V', rev_range.
    - cbn [bind]. exists zr, zi. split; [reflexivity|]. split; [exact Wr|]. split; [exact Wi|].
      assert (l = 1)%nat as -> by lia. change (2 ^ Z.of_nat 1) with 2 in *.
      intros k K. replace (rev_bits 1 k) with k by (assert (k = 0 \/ k = 1) as [->| ->] by lia; reflexivity). apply V', K. }
  destruct forward.
  - destruct (G re im Lr Li) as [yr [yi (-> & A & B & V)]]. exists yr, yi. auto.
  - destruct (G im re Li Lr) as [yr [yi (-> & A & B & V)]]. exists yi, yr. split; [reflexivity|]. split; [exact B|].
    split; [exact A|]. intros k K. unfold transform. change (fun n => flip (nz re n, nz im n)) with (fun n => (nz im n, nz re n)).
    rewrite <- V by exact K. reflexivity.
Qed.

Lemma nz_firstn : forall k (x : list F) i, 0 <= i < Z.of_nat k -> nz (firstn k x) i = nz x i.
Proof.
  intros k x i H. unfold SrfftSteps.nz. set (n := Z.to_nat i). assert (n < k)%nat by (unfold n; lia). clearbody n. clear - H0.
  revert k n H0. induction x as [|a x IH]; intros k n H; destruct k; try lia; [reflexivity|]. destruct n; [reflexivity|]. cbn [firstn nth]. apply IH. lia.
Qed.

Lemma nz_skipn : forall k (x : list F) i, 0 <= i -> nz (skipn k x) i = nz x (Z.of_nat k + i).
Proof.
  intros k x i H. unfold SrfftSteps.nz. replace (Z.to_nat (Z.of_nat k + i)) with (k + Z.to_nat i)%nat by lia. generalize (Z.to_nat i).
  revert x. induction k as [|k IH]; intros x n; [reflexivity|]. destruct x; [destruct n; reflexivity|]. cbn [skipn nth Nat.add]. apply IH.
Qed.

Lemma nz_app : forall (x y : list F) i, 0 <= i -> nz (x ++ y) i = if i <? lenZ x then nz x i else nz y (i - lenZ x).
Proof.
  intros x y i H. unfold SrfftSteps.nz, lenZ. destruct (Z.ltb_spec i (Z.of_nat (length x))).
  - apply app_nth1. lia.
  - rewrite app_nth2 by lia. f_equal. lia.
Qed.

Lemma complex_compute_ok : forall l f forward x buffer, (1 <= l)%nat -> ready O T l f ->
  lenZ x = 2 * 2 ^ Z.of_nat l -> 2 ^ Z.of_nat l <= lenZ buffer ->
  exists y buffer', complex_compute O T f x (lenZ x) forward buffer (lenZ buffer) = Ok (y, buffer') /\
    lenZ y = lenZ x /\ lenZ buffer' = lenZ buffer /\
    forall k, 0 <= k < 2 ^ Z.of_nat l -> pl y k = transform l forward (pl x) k.
Proof.
  intros l f forward x buffer L1 R Lx B. pose proof (proj1 R) as En. unfold complex_compute. rewrite En.
  pose proof (pow2_pos l) as Pl. set (n := 2 ^ Z.of_nat l) in *. rewrite Lx.
  rewrite (proj2 (Z.eqb_eq (2 * n) (n * 2))) by lia. cbn [check bind].
  destruct (Z.leb_spec n (lenZ buffer)); [|lia]. cbn [check bind].
  destruct (separate_ok n x buffer ltac:(lia) Lx B) as [y [b1 (-> & Ly & Lb1 & V1)]]. cbn [bind]. cbv zeta.
  assert (Lr : lenZ (firstn (Z.to_nat n) y) = n) by (unfold lenZ in *; rewrite firstn_length; lia).
  assert (Li : lenZ (firstn (Z.to_nat n) (skipn (Z.to_nat n) y)) = n) by (unfold lenZ in *; rewrite firstn_length, skipn_length; lia).
  destruct (complex_fft_ok l f forward _ _ L1 R Lr Li) as [re [im (-> & Lre & Lim & V2)]]. fold n in Lre, Lim, V2. cbn [bind].
  assert (Sk : skipn (Z.to_nat n + Z.to_nat n) y = []) by (apply skipn_all2; unfold lenZ in Ly; lia).
  rewrite Sk, app_nil_r.
  destruct (interleave_ok n (re ++ im) b1 Pl ltac:(rewrite lenZ_app; lia) ltac:(lia)) as [w [b2 (-> & Lw & Lb2 & V3)]].
  exists w, b2. split; [reflexivity|]. split; [lia|]. split; [lia|]. intros k K. rewrite V3 by exact K.
  rewrite !nz_app by lia. rewrite Lre. destruct (Z.ltb_spec k n); [|lia]. destruct (Z.ltb_spec (n + k) n); [lia|].
  replace (n + k - n) with k by lia. rewrite V2 by exact K.
  assert (X : forall j, 0 <= j < n -> (nz (firstn (Z.to_nat n) y) j, nz (firstn (Z.to_nat n) (skipn (Z.to_nat n) y)) j) = pl x j).
  { intros j J. rewrite <- V1 by exact J. rewrite !nz_firstn by lia. rewrite nz_skipn by lia. now rewrite Z2Nat.id by lia. }
  unfold transform. pose proof (rev_range l k) as Rk. destruct forward.
  - apply fast_ext; [exact X|exact Rk].
  - f_equal. apply fast_ext; [|exact Rk]. intros j J. now rewrite X.
Qed.

Lemma complex_compute_asserts : forall f forward x buffer,
  lenZ x <> s_n f * 2 \/ lenZ buffer < s_n f ->
  complex_compute O T f x (lenZ x) forward buffer (lenZ buffer) = Fault Assert.
Proof.
  intros f forward x buffer H. unfold complex_compute. destruct (Z.eqb_spec (lenZ x) (s_n f * 2)); [|reflexivity].
  cbn [check bind]. destruct (Z.leb_spec (s_n f) (lenZ buffer)); [lia|reflexivity].
Qed.

(** * The loop for real signals *)

Definition c_of (b b' : complex) : complex := (t_half T (f_add O (fst b) (fst b')), t_half T (f_sub O (snd b) (snd b'))).
Definition d_of (b b' : complex) : complex := (t_half T (f_add O (snd b) (snd b')), t_neg_half T (f_sub O (fst b) (fst b'))).
Definition plus (a b : complex) : complex := (f_add O (fst a) (fst b), f_add O (snd a) (snd b)).
Definition unmix (kn b b' : complex) : complex := plus (c_of b b') (complex_mul O (d_of b b') kn).
Definition unmix' (kn b b' : complex) : complex :=
  plus (fst (c_of b b'), t_neg T (snd (c_of b b')))
       (complex_mul O (fst (d_of b b'), t_neg T (snd (d_of b b'))) (t_neg T (fst kn), snd kn)).

(** [kn] multiplied [k] times by [root]. *)
Fixpoint turned (root kn : complex) (k : nat) : complex :=
  match k with 0%nat => kn | S k => complex_mul O root (turned root kn k) end.

Lemma add_product_ok : forall x k a b, 0 <= k -> 2 * k + 1 < lenZ x ->
  exists y, add_product O x (2 * k) a b = Ok y /\ lenZ y = lenZ x /\
    pl y k = plus (pl x k) (complex_mul O a b) /\ forall j, 0 <= j -> j <> 2 * k -> j <> 2 * k + 1 -> nz y j = nz x j.
Proof.
  intros x k a b K L. unfold add_product. rewrite (getZ_nz (dft0 O)) by lia. cbn [bind]. rewrite setZ_ok by lia. cbn [bind].
  rewrite (getZ_nz (dft0 O)) by (rewrite lenZ_upd; lia). cbn [bind]. rewrite setZ_ok by (rewrite lenZ_upd; lia).
  eexists. split; [reflexivity|]. split; [now rewrite !lenZ_upd|]. split.
  - unfold pl, plus, complex_mul. cbn [fst snd]. rewrite !nz_upd by (rewrite ?lenZ_upd; lia). rewrite !Z.eqb_refl.
    destruct (Z.eqb_spec (2 * k + 1) (2 * k)); [lia|]. destruct (Z.eqb_spec (2 * k) (2 * k + 1)); [lia|]. reflexivity.
  - intros j J N1 N2. rewrite !nz_upd by (rewrite ?lenZ_upd; lia). destruct (Z.eqb_spec (2 * k + 1) j); [lia|].
    destruct (Z.eqb_spec (2 * k) j); [lia|]. reflexivity.
Qed.

(** Setting one place and adding to it. *)
Lemma put_ok : forall x k c a b, 0 <= k -> 2 * k + 1 < lenZ x ->
  exists y, (x <- setZ x (2 * k) (fst c) ;; x <- setZ x (2 * k + 1) (snd c) ;; add_product O x (2 * k) a b) = Ok y /\
    lenZ y = lenZ x /\ pl y k = plus c (complex_mul O a b) /\ forall j, 0 <= j -> j <> 2 * k -> j <> 2 * k + 1 -> nz y j = nz x j.
Proof.
  intros x k c a b K L. rewrite setZ_ok by lia. cbn [bind]. rewrite setZ_ok by (rewrite lenZ_upd; lia). cbn [bind].
  match goal with |- context [add_product O ?z _ _ _] => set (x1 := z) end.
  assert (L1 : lenZ x1 = lenZ x) by (unfold x1; now rewrite !lenZ_upd).
  destruct (add_product_ok x1 k a b K ltac:(lia)) as [y (-> & Ly & P & Fr)]. exists y. split; [reflexivity|]. split; [lia|]. split.
  - rewrite P. f_equal. unfold pl, x1. rewrite !nz_upd by (rewrite ?lenZ_upd; lia). rewrite !Z.eqb_refl.
    destruct (Z.eqb_spec (2 * k + 1) (2 * k)); [lia|]. destruct c; reflexivity.
  - intros j J N1 N2. rewrite Fr by assumption. unfold x1. rewrite !nz_upd by (rewrite ?lenZ_upd; lia).
    destruct (Z.eqb_spec (2 * k + 1) j); [lia|]. destruct (Z.eqb_spec (2 * k) j); [lia|]. reflexivity.
Qed.

Lemma real_loop_ok : forall n2 root kn x, 0 < n2 -> n2 mod 2 = 0 -> 2 * n2 <= lenZ x ->
  exists y, real_loop O T n2 root kn x = Ok y /\ lenZ y = lenZ x /\ pl y 0 = pl x 0 /\
    (forall k, 1 <= k <= n2 / 2 ->
       pl y k = unmix (turned root kn (Z.to_nat k)) (pl x k) (pl x (n2 - k)) /\
       (n2 - k <> k -> pl y (n2 - k) = unmix' (turned root kn (Z.to_nat k)) (pl x k) (pl x (n2 - k)))).
Proof.
  intros n2 root kn x P Ev L. unfold real_loop.
  match goal with |- context [for_up 1 (n2 / 2 + 1) ?f _] => set (body := f) end.
  destruct (for_up_inv (list F * complex) (fun k '(y, c) => lenZ y = lenZ x /\ c = turned root kn (Z.to_nat (k - 1)) /\
      (forall j, 0 <= j -> ~ 2 <= j < 2 * k -> ~ 2 * (n2 - k + 1) <= j < 2 * n2 -> nz y j = nz x j) /\
      (forall j, 1 <= j < k ->
       pl y j = unmix (turned root kn (Z.to_nat j)) (pl x j) (pl x (n2 - j)) /\
       (n2 - j <> j -> pl y (n2 - j) = unmix' (turned root kn (Z.to_nat j)) (pl x j) (pl x (n2 - j)))))
    body 1 (n2 / 2 + 1) (x, kn) ltac:(lia)) as [[y c] (-> & Ly & _ & Fr & V)].
  - split; [reflexivity|]. split; [reflexivity|]. split; [reflexivity|]. intros; lia.
  - intros k [y c] K (Ly & -> & Fr & V). unfold body.
    replace (complex_mul O root (turned root kn (Z.to_nat (k - 1)))) with (turned root kn (Z.to_nat k))
      by (replace (Z.to_nat k) with (S (Z.to_nat (k - 1))) by lia; reflexivity).
    set (c := turned root kn (Z.to_nat k)). cbv zeta.
    rewrite !(getZ_nz (dft0 O)) by lia. cbn [bind].
    replace (n2 * 2 - 2 * k + 1) with (2 * (n2 - k) + 1) by lia. replace (n2 * 2 - 2 * k) with (2 * (n2 - k)) by lia.
    rewrite !Fr by lia.
    set (b := pl x k). set (b' := pl x (n2 - k)).
    change (t_half T (f_add O (nz x (2 * k)) (nz x (2 * (n2 - k)))), t_half T (f_sub O (nz x (2 * k + 1)) (nz x (2 * (n2 - k) + 1)))) with (c_of b b').
    change (t_half T (f_add O (nz x (2 * k + 1)) (nz x (2 * (n2 - k) + 1))), t_neg_half T (f_sub O (nz x (2 * k)) (nz x (2 * (n2 - k))))) with (d_of b b').
    destruct (put_ok y k (c_of b b') (d_of b b') c ltac:(lia) ltac:(lia)) as [y1 (E1 & L1 & P1 & F1)].
    assert (Bd : forall A (m : res A) (g1 : A -> res A) (g2 : A -> res A) (g3 : A -> res (list F * complex)),
              (z <- m ;; z <- g1 z ;; z <- g2 z ;; g3 z) = (z <- (z <- m ;; z <- g1 z ;; g2 z) ;; g3 z)).
    { intros A m g1 g2 g3. destruct m as [a|e]; [cbn [bind]; destruct (g1 a) as [a'|e]; reflexivity|reflexivity]. }
    rewrite Bd, E1. cbn [bind]. destruct (Z.eqb_spec (n2 - k) k) as [Ek|Nk].
    + cbn [bind]. eexists. split; [reflexivity|]. split; [lia|].
      split; [replace (k + 1 - 1) with k by lia; reflexivity|]. split.
      * intros j J J1 J2. rewrite F1 by lia. apply Fr; lia.
      * intros j J. destruct (Z.eq_dec j k) as [->|Nj]; [split; [exact P1|lia]|].
        destruct (V j ltac:(lia)) as [A B]. unfold pl in *. rewrite !F1 by lia. split; [exact A|exact B].
    + destruct (put_ok y1 (n2 - k) (fst (c_of b b'), t_neg T (snd (c_of b b'))) (fst (d_of b b'), t_neg T (snd (d_of b b')))
                  (t_neg T (fst c), snd c) ltac:(lia) ltac:(lia)) as [y2 (E2 & L2 & P2 & F2)].
      cbn [fst snd] in E2. rewrite E2. cbn [bind]. eexists. split; [reflexivity|]. split; [lia|].
      split; [replace (k + 1 - 1) with k by lia; reflexivity|]. split.
      * intros j J J1 J2. rewrite F2, F1 by lia. apply Fr; lia.
      * intros j J. destruct (Z.eq_dec j k) as [->|Nj].
        -- split; [|intros _; exact P2]. transitivity (pl y1 k); [unfold pl; now rewrite !F2 by lia|exact P1].
        -- destruct (V j ltac:(lia)) as [A B]. unfold pl in *. rewrite !F2, !F1 by lia. split; [exact A|exact B].
  - cbn [bind]. exists y. split; [reflexivity|]. split; [exact Ly|]. split.
    + unfold pl. rewrite !Fr by lia. reflexivity.
    + intros k K. apply V. lia.
Qed.

(** What becomes of the places in the loop and the lines after it. *)
Definition real_step (n2 : Z) (root kn : complex) (b : Z -> complex) (k : Z) : complex :=
  if k =? 0 then (f_add O (fst (b 0)) (snd (b 0)), f_sub O (fst (b 0)) (snd (b 0)))
  else if 2 * k <=? n2 then unmix (turned root kn (Z.to_nat k)) (b k) (b (n2 - k))
  else unmix' (turned root kn (Z.to_nat (n2 - k))) (b (n2 - k)) (b k).

Lemma real_part_ok : forall n2 root kn x, 0 < n2 -> n2 mod 2 = 0 -> 2 * n2 <= lenZ x ->
  exists y, (data <- real_loop O T n2 root kn x ;;
             d0 <- getZ data 0 ;; d1 <- getZ data 1 ;;
             data <- setZ data 0 (f_add O d0 d1) ;; setZ data 1 (f_sub O d0 d1)) = Ok y /\
    lenZ y = lenZ x /\ forall k, 0 <= k < n2 -> pl y k = real_step n2 root kn (pl x) k.
Proof.
  intros n2 root kn x P Ev L. destruct (real_loop_ok n2 root kn x P Ev L) as [y (-> & Ly & P0 & V)]. cbn [bind].
  rewrite !(getZ_nz (dft0 O)) by lia. cbn [bind]. rewrite setZ_ok by lia. cbn [bind]. rewrite setZ_ok by (rewrite lenZ_upd; lia).
  eexists. split; [reflexivity|]. split; [now rewrite !lenZ_upd|]. intros k K. unfold real_step.
  unfold pl in P0. injection P0 as Q1 Q2. change (2 * 0) with 0 in *. change (0 + 1) with 1 in *.
  destruct (Z.eqb_spec k 0) as [->|Nk].
  - unfold pl at 1. change (2 * 0) with 0. change (0 + 1) with 1. rewrite !nz_upd by (rewrite ?lenZ_upd; lia).
    cbn [Z.eqb Pos.eqb]. rewrite Q1, Q2. reflexivity.
  - transitivity (pl y k).
    + unfold pl. rewrite !nz_upd by (rewrite ?lenZ_upd; lia). destruct (Z.eqb_spec 1 (2 * k)), (Z.eqb_spec 0 (2 * k)); try lia.
      destruct (Z.eqb_spec 1 (2 * k + 1)), (Z.eqb_spec 0 (2 * k + 1)); try lia. reflexivity.
    + destruct (Z.leb_spec (2 * k) n2).
      * apply V. lia.
      * destruct (V (n2 - k) ltac:(lia)) as [_ A]. replace (n2 - (n2 - k)) with k in A by lia. apply A. lia.
Qed.

(** * The whole call *)

Definition root_of (n sign : Z) : complex := (t_cos T (t_root T n sign), t_sin T (t_root T n sign)).

Definition forward_of (l : nat) (x : Z -> complex) : Z -> complex :=
  let n2 := 2 ^ Z.of_nat l in
  real_step n2 (root_of (n2 * 2) (-1)) (f_int O 1, f_zero O) (transform l true x).

Definition backward_of (l : nat) (x : Z -> complex) (k : Z) : complex :=
  let n2 := 2 ^ Z.of_nat l in
  let y := real_step n2 (root_of (n2 * 2) 1) (f_int O (-1), f_zero O) x in
  let z k := if k =? 0 then (t_halve T (fst (y 0)), t_halve T (snd (y 0))) else y k in
  let w := transform l false z k in
  (t_double T (fst w), t_double T (snd w)).

Lemma transform_ext : forall l forward x x' k, (forall n, 0 <= n < 2 ^ Z.of_nat l -> x n = x' n) ->
  transform l forward x k = transform l forward x' k.
Proof.
  intros l forward x x' k H. unfold transform. pose proof (rev_range l k). destruct forward.
  - now apply fast_ext.
  - f_equal. apply fast_ext; [|assumption]. intros n N. now rewrite H.
Qed.

Lemma real_step_ext : forall n2 root kn b b' k, 0 <= k < n2 -> (forall n, 0 <= n < n2 -> b n = b' n) ->
  real_step n2 root kn b k = real_step n2 root kn b' k.
Proof.
  intros n2 root kn b b' k K H. unfold real_step. destruct (Z.eqb_spec k 0); [now rewrite H by lia|].
  rewrite (H k), (H (n2 - k)) by lia. reflexivity.
Qed.

Lemma even_power : forall l, (1 <= l)%nat -> 2 ^ Z.of_nat l mod 2 = 0.
Proof. intros l H. destruct l; [lia|]. rewrite pow2_S, Z.mul_comm. apply Z_mod_mult. Qed.

Lemma bind5 : forall A B C0 D0 E0 (m : res A) (g1 : A -> res B) (g2 : A -> res C0) (g3 : A -> B -> C0 -> res A) (g4 : A -> B -> C0 -> A -> res D0) (g5 : D0 -> res E0),
  (a <- m ;; b <- g1 a ;; c <- g2 a ;; a' <- g3 a b c ;; d <- g4 a b c a' ;; g5 d) =
  (d <- (a <- m ;; b <- g1 a ;; c <- g2 a ;; a' <- g3 a b c ;; g4 a b c a') ;; g5 d).
Proof.
  intros. destruct m as [a|]; [cbn [bind]|reflexivity]. destruct (g1 a) as [b|]; [cbn [bind]|reflexivity].
  destruct (g2 a) as [c|]; [cbn [bind]|reflexivity]. destruct (g3 a b c) as [a'|]; [cbn [bind]|reflexivity]. reflexivity.
Qed.

Lemma compute_ok : forall l f (forward : bool) x buffer, (1 <= l)%nat -> ready O T l f ->
  lenZ x = 2 * 2 ^ Z.of_nat l -> 2 ^ Z.of_nat l <= lenZ buffer ->
  exists y buffer', compute O T f x (lenZ x) forward buffer (lenZ buffer) = Ok (y, buffer') /\
    lenZ y = lenZ x /\ lenZ buffer' = lenZ buffer /\
    forall k, 0 <= k < 2 ^ Z.of_nat l -> pl y k = if forward then forward_of l (pl x) k else backward_of l (pl x) k.
Proof.
  intros l f forward x buffer L1 R Lx B. unfold compute. rewrite (proj1 R). pose proof (even_power l L1) as Ev.
  pose proof (pow2_pos l) as Pl. set (n := 2 ^ Z.of_nat l) in *. cbv zeta. destruct forward.
  - destruct (complex_compute_ok l f true x buffer L1 R Lx B) as [y [b1 (-> & Ly & Lb & V)]]. fold n in V. cbn [bind].
    change (t_cos T (t_root T (n * 2) (-1)), t_sin T (t_root T (n * 2) (-1))) with (root_of (n * 2) (-1)). change (- (-1)) with 1.
    destruct (real_part_ok n (root_of (n * 2) (-1)) (f_int O 1, f_zero O) y Pl Ev ltac:(lia)) as [w (E & Lw & W)].
    rewrite bind5, E. cbn [bind]. exists w, b1. split; [reflexivity|]. split; [lia|]. split; [exact Lb|].
    intros k K. rewrite W by exact K. unfold forward_of. fold n. apply real_step_ext; [exact K|exact V].
  - cbn [bind].
    change (t_cos T (t_root T (n * 2) 1), t_sin T (t_root T (n * 2) 1)) with (root_of (n * 2) 1). change (- (1)) with (-1).
    destruct (real_part_ok n (root_of (n * 2) 1) (f_int O (-1), f_zero O) x Pl Ev ltac:(lia)) as [w (E & Lw & W)].
    rewrite bind5, E. cbn [bind]. rewrite (getZ_nz (dft0 O)) by lia. cbn [bind]. rewrite setZ_ok by lia. cbn [bind].
    rewrite (getZ_nz (dft0 O)) by (rewrite lenZ_upd; lia). cbn [bind]. rewrite setZ_ok by (rewrite lenZ_upd; lia). cbn [bind].
    match goal with |- context [complex_compute O T f ?z] => set (w2 := z) end.
    assert (L2 : lenZ w2 = lenZ x) by (unfold w2; rewrite !lenZ_upd; lia).
    rewrite <- L2. destruct (complex_compute_ok l f false w2 buffer L1 R ltac:(fold n; lia) B) as [y [b1 (-> & Ly & Lb & V)]].
    fold n in V. cbn [bind].
    assert (Db : exists y', for_up 0 (n * 2) (fun data i => a <- getZ data i ;; setZ data i (t_double T a)) y = Ok y' /\
              lenZ y' = lenZ y /\ forall i, 0 <= i < n * 2 -> nz y' i = t_double T (nz y i)).
    { destruct (for_up_inv (list F) (fun k y' => lenZ y' = lenZ y /\ (forall i, 0 <= i < k -> nz y' i = t_double T (nz y i)) /\
          forall i, k <= i -> nz y' i = nz y i)
        (fun data i => a <- getZ data i ;; setZ data i (t_double T a)) 0 (n * 2) y ltac:(lia)) as [y' (E' & A1 & A2 & _)].
      - split; [reflexivity|]. split; [intros; lia|reflexivity].
      - intros k y' K (A1 & A2 & A3). rewrite (getZ_nz (dft0 O)) by lia. cbn [bind]. rewrite setZ_ok by lia.
        eexists. split; [reflexivity|]. split; [now rewrite lenZ_upd|]. split; intros i I; rewrite nz_upd by lia.
        + destruct (Z.eqb_spec k i) as [<-|]; [now rewrite A3 by lia|]. apply A2. lia.
        + destruct (Z.eqb_spec k i); [lia|]. apply A3. lia.
      - exists y'. auto. }
    destruct Db as [y' (-> & Ly' & V')]. cbn [bind]. exists y', b1. split; [reflexivity|]. split; [lia|]. split; [exact Lb|].
    intros k K. unfold pl. rewrite !V' by lia. unfold backward_of. fold n. cbv zeta.
    rewrite <- (transform_ext l false (pl w2)).
    + rewrite <- V by exact K. reflexivity.
    + fold n. intros j J. change (fun k0 : Z => (nz x (2 * k0), nz x (2 * k0 + 1))) with (pl x). rewrite <- (W 0) by lia. destruct (Z.eqb_spec j 0) as [->|Nj].
      * unfold pl, w2. change (2 * 0) with 0. change (0 + 1) with 1. cbn [fst snd].
        rewrite !nz_upd by (rewrite ?lenZ_upd; lia). reflexivity.
      * rewrite <- W by lia. unfold pl, w2. rewrite !nz_upd by (rewrite ?lenZ_upd; lia).
        destruct (Z.eqb_spec 1 (2 * j)), (Z.eqb_spec 0 (2 * j)); try lia.
        destruct (Z.eqb_spec 1 (2 * j + 1)), (Z.eqb_spec 0 (2 * j + 1)); try lia. reflexivity.
Qed.

(** Sizes that do not fit stop the program, except that the way back reads the data first. *)
Lemma compute_checked : forall l f (forward : bool) x buffer, (1 <= l)%nat -> ready O T l f ->
  (forward = false -> 2 * 2 ^ Z.of_nat l <= lenZ x) ->
  lenZ x <> 2 * 2 ^ Z.of_nat l \/ lenZ buffer < 2 ^ Z.of_nat l ->
  compute O T f x (lenZ x) forward buffer (lenZ buffer) = Fault Assert.
Proof.
  intros l f forward x buffer L1 R Hb H. pose proof (proj1 R) as En. pose proof (even_power l L1) as Ev. pose proof (pow2_pos l) as Pl.
  unfold compute. rewrite En. set (n := 2 ^ Z.of_nat l) in *. cbv zeta. destruct forward.
  - rewrite complex_compute_asserts by lia. reflexivity.
  - specialize (Hb eq_refl). cbn [bind].
    change (t_cos T (t_root T (n * 2) 1), t_sin T (t_root T (n * 2) 1)) with (root_of (n * 2) 1). change (- (1)) with (-1).
    destruct (real_part_ok n (root_of (n * 2) 1) (f_int O (-1), f_zero O) x Pl Ev ltac:(lia)) as [w (E & Lw & W)].
    rewrite bind5, E. cbn [bind]. rewrite (getZ_nz (dft0 O)) by lia. cbn [bind]. rewrite setZ_ok by lia. cbn [bind].
    rewrite (getZ_nz (dft0 O)) by (rewrite lenZ_upd; lia). cbn [bind]. rewrite setZ_ok by (rewrite lenZ_upd; lia). cbn [bind].
    match goal with |- context [complex_compute O T f ?z] => set (w2 := z) end.
    assert (L2 : lenZ w2 = lenZ x) by (unfold w2; rewrite !lenZ_upd; lia).
    rewrite <- L2, complex_compute_asserts by lia. reflexivity.
Qed.
End Calls.
