(** Tables and bit reversal of the Fourier transform, in any arithmetic. *)
From Coq Require Import ZArith List Bool Lia.
From Verif.Base Require Import Prelude Lemmas.
From Verif.Model Require Import Arith Vector Matrix Srfft.
From Verif.Proof Require Import Loop Matrix SrfftSteps.
Import ListNotations.
Open Scope Z_scope.
Ltac Zify.zify_post_hook ::= Z.div_mod_to_equations.

(** * Bit reversal *)

(** The last [bits] bits of [i] in reverse order. *)
Fixpoint rev_bits (bits : nat) (i : Z) : Z :=
  match bits with
  | 0%nat => 0
  | S k => (i mod 2) * 2 ^ Z.of_nat k + rev_bits k (i / 2)
  end.

Lemma rev_range : forall k i, 0 <= rev_bits k i < 2 ^ Z.of_nat k.
Proof.
  induction k as [|k IH]; intros i; [cbn; lia|]. cbn [rev_bits]. specialize (IH (i / 2)). rewrite pow2_S.
  assert (i mod 2 = 0 \/ i mod 2 = 1) as [->| ->] by lia; lia.
Qed.

Lemma rev_high0 : forall k i, 0 <= i < 2 ^ Z.of_nat k -> rev_bits (S k) i = 2 * rev_bits k i.
Proof.
  induction k as [|k IH]; intros i H; [change (2 ^ Z.of_nat 0) with 1 in H; assert (i = 0) as -> by lia; reflexivity|].
  change (rev_bits (S (S k)) i) with ((i mod 2) * 2 ^ Z.of_nat (S k) + rev_bits (S k) (i / 2)).
  rewrite IH by (rewrite pow2_S in H; lia). cbn [rev_bits]. rewrite pow2_S.
  generalize (i mod 2) (2 ^ Z.of_nat k) (rev_bits k (i / 2)). intros; ring.
Qed.

Lemma rev_high1 : forall k i, 0 <= i < 2 ^ Z.of_nat k -> rev_bits (S k) (i + 2 ^ Z.of_nat k) = 2 * rev_bits k i + 1.
Proof.
  induction k as [|k IH]; intros i H; [change (2 ^ Z.of_nat 0) with 1 in *; assert (i = 0) as -> by lia; reflexivity|].
  change (rev_bits (S (S k)) (i + 2 ^ Z.of_nat (S k)))
    with (((i + 2 ^ Z.of_nat (S k)) mod 2) * 2 ^ Z.of_nat (S k) + rev_bits (S k) ((i + 2 ^ Z.of_nat (S k)) / 2)).
  rewrite pow2_S in *. replace ((i + 2 * 2 ^ Z.of_nat k) / 2) with (i / 2 + 2 ^ Z.of_nat k) by lia.
  replace ((i + 2 * 2 ^ Z.of_nat k) mod 2) with (i mod 2) by lia. rewrite IH by lia. cbn [rev_bits].
  generalize (i mod 2) (2 ^ Z.of_nat k) (rev_bits k (i / 2)). intros; ring.
Qed.

Lemma rev_invol : forall k i, 0 <= i < 2 ^ Z.of_nat k -> rev_bits k (rev_bits k i) = i.
Proof.
  induction k as [|k IH]; intros i H; [cbn in *; lia|]. rewrite pow2_S in H.
  pose proof (rev_range k (i / 2)) as R. specialize (IH (i / 2) ltac:(lia)).
  change (rev_bits (S k) i) with ((i mod 2) * 2 ^ Z.of_nat k + rev_bits k (i / 2)).
  assert (i mod 2 = 0 \/ i mod 2 = 1) as [E|E] by lia; rewrite E.
  - rewrite Z.mul_0_l, Z.add_0_l, rev_high0 by exact R. rewrite IH. lia.
  - rewrite Z.mul_1_l, Z.add_comm, rev_high1 by exact R. rewrite IH. lia.
Qed.

Lemma rev_split : forall h g o n, 0 <= o < 2 ^ Z.of_nat h ->
  rev_bits (h + g) (o + 2 ^ Z.of_nat h * n) = rev_bits h o * 2 ^ Z.of_nat g + rev_bits g n.
Proof.
  induction h as [|h IH]; intros g o n H.
  - change (2 ^ Z.of_nat 0) with 1 in *. assert (o = 0) as -> by lia. cbn [Nat.add rev_bits]. rewrite Z.mul_0_l, Z.add_0_l, Z.mul_1_l. reflexivity.
  - rewrite pow2_S in *. cbn [Nat.add rev_bits].
    replace ((o + 2 * 2 ^ Z.of_nat h * n) mod 2) with (o mod 2) by (rewrite <- Z.mul_assoc; lia).
    replace ((o + 2 * 2 ^ Z.of_nat h * n) / 2) with (o / 2 + 2 ^ Z.of_nat h * n) by (rewrite <- Z.mul_assoc; lia).
    rewrite IH by lia. rewrite Nat2Z.inj_add, Z.pow_add_r by lia.
    generalize (o mod 2) (2 ^ Z.of_nat h) (2 ^ Z.of_nat g) (rev_bits h (o / 2)) (rev_bits g n). intros; ring.
Qed.

Lemma malloc_len : forall A (j : nat -> A) n, 0 <= n -> lenZ (malloc j n) = n.
Proof. intros A j n H. unfold malloc, lenZ. rewrite map_length, seq_length. lia. Qed.

(** * The seeds *)

(** Half of the bits, rounded up. *)
Definition upper (l : nat) : nat := (l - l / 2)%nat.

Lemma seeds_ok : forall junk l, (1 <= l)%nat ->
  exists b, seed_table junk (Z.of_nat l) = Ok b /\ lenZ b = 2 ^ Z.of_nat (upper l) /\
    forall i, 0 <= i < 2 ^ Z.of_nat (upper l) -> getZ b i = Ok (rev_bits (upper l) i).
Proof.
  intros junk l H. unfold seed_table.
  assert (E : Z.shiftr (Z.of_nat l) 1 + (if Z.odd (Z.of_nat l) then 1 else 0) = Z.of_nat (upper l)).
  { rewrite Z.shiftr_div_pow2 by lia. change (2 ^ 1) with 2. unfold upper.
    pose proof (Nat.div_mod_eq l 2) as D0. pose proof (Zmod_odd (Z.of_nat l)) as D1.
    rewrite Nat2Z.inj_sub by (apply Nat.div_le_upper_bound; lia). rewrite Nat2Z.inj_div. change (Z.of_nat 2) with 2.
    destruct (Z.odd (Z.of_nat l)); lia. }
  rewrite E. cbv zeta. set (g := upper l) in *.
  assert (G : (1 <= g)%nat) by (unfold g, upper; pose proof (Nat.div_lt l 2 ltac:(lia) ltac:(lia)); lia).
  assert (G2 : 2 <= 2 ^ Z.of_nat g).
  { change 2 with (2 ^ 1) at 1. apply Z.pow_le_mono_r; lia. }
  pose proof (malloc_len _ junk (2 ^ Z.of_nat g) ltac:(lia)) as Lm.
  rewrite setZ_ok by lia. cbn [bind]. rewrite setZ_ok by (rewrite lenZ_upd; lia). cbn [bind].
  set (b0 := upd _ _ _).
  destruct (for_up_inv (list Z) (fun j b => lenZ b = 2 ^ Z.of_nat g /\
      forall i, 0 <= i < 2 ^ (j - 1) -> nz 0 b i = rev_bits (Z.to_nat (j - 1)) i)
    (fun b j => for_up 0 (2 ^ (j - 1)) (fun b i =>
      x <- getZ b i ;; b <- setZ b i (2 * x) ;; setZ b (i + 2 ^ (j - 1)) (2 * x + 1)) b)
    2 (Z.of_nat g + 1) b0 ltac:(lia)) as [b (-> & Lb & Vb)].
  - split; [unfold b0; now rewrite !lenZ_upd|]. intros i Hi. change (2 ^ (2 - 1)) with 2 in Hi.
    change (Z.to_nat (2 - 1)) with 1%nat. unfold b0. rewrite !nz_upd by (rewrite ?lenZ_upd; lia).
    assert (i = 0 \/ i = 1) as [->| ->] by lia; reflexivity.
  - intros j b J [Lb Vb]. set (k := Z.to_nat (j - 1)) in *. assert (Ek : j - 1 = Z.of_nat k) by (unfold k; lia).
    rewrite Ek in *. pose proof (pow2_pos k) as Pk.
    assert (Kg : 2 * 2 ^ Z.of_nat k <= 2 ^ Z.of_nat g).
    { rewrite <- pow2_S. apply Z.pow_le_mono_r; lia. }
    destruct (for_up_inv (list Z) (fun n b => lenZ b = 2 ^ Z.of_nat g /\
        (forall i, 0 <= i < n -> nz 0 b i = 2 * rev_bits k i /\ nz 0 b (i + 2 ^ Z.of_nat k) = 2 * rev_bits k i + 1) /\
        (forall i, n <= i < 2 ^ Z.of_nat k -> nz 0 b i = rev_bits k i))
      (fun b i => x <- getZ b i ;; b <- setZ b i (2 * x) ;; setZ b (i + 2 ^ Z.of_nat k) (2 * x + 1))
      0 (2 ^ Z.of_nat k) b ltac:(lia)) as [b' (-> & Lb' & Vb' & _)].
    + split; [exact Lb|]. split; [intros i Hi; lia|exact Vb].
    + intros n c N (Lc & Vc & Vc'). rewrite (getZ_nz 0) by lia. cbn [bind]. rewrite setZ_ok by lia. cbn [bind].
      rewrite setZ_ok by (rewrite lenZ_upd; lia). eexists. split; [reflexivity|].
      split; [now rewrite !lenZ_upd|]. rewrite (Vc' n) by lia. split.
      * intros i Hi. rewrite !nz_upd by (rewrite ?lenZ_upd; lia).
        destruct (Z.eq_dec i n) as [->|Ni].
        -- destruct (Z.eqb_spec (n + 2 ^ Z.of_nat k) n); [lia|]. rewrite !Z.eqb_refl. split; reflexivity.
        -- destruct (Z.eqb_spec (n + 2 ^ Z.of_nat k) i); [lia|]. destruct (Z.eqb_spec n i); [lia|].
           destruct (Z.eqb_spec (n + 2 ^ Z.of_nat k) (i + 2 ^ Z.of_nat k)); [lia|].
           destruct (Z.eqb_spec n (i + 2 ^ Z.of_nat k)); [lia|]. apply Vc. lia.
      * intros i Hi. rewrite !nz_upd by (rewrite ?lenZ_upd; lia).
        destruct (Z.eqb_spec (n + 2 ^ Z.of_nat k) i); [lia|]. destruct (Z.eqb_spec n i); [lia|]. apply Vc'. lia.
    + exists b'. split; [reflexivity|]. split; [exact Lb'|].
      replace (j + 1 - 1) with (Z.of_nat (S k)) by lia. rewrite Nat2Z.id, pow2_S. intros i Hi.
      destruct (Z.lt_ge_cases i (2 ^ Z.of_nat k)) as [C1|C1].
      * rewrite (proj1 (Vb' i ltac:(lia))). symmetry. apply rev_high0. lia.
      * replace i with (i - 2 ^ Z.of_nat k + 2 ^ Z.of_nat k) by lia. rewrite (proj2 (Vb' (i - 2 ^ Z.of_nat k) ltac:(lia))).
        symmetry. apply rev_high1. lia.
  - replace (Z.of_nat g + 1 - 1) with (Z.of_nat g) in Vb by lia. rewrite Nat2Z.id in Vb.
    exists b. split; [reflexivity|]. split; [exact Lb|]. intros i Hi. rewrite (getZ_nz 0) by lia. f_equal. now apply Vb.
Qed.

(** * The tables *)

Section Tables.
Context {F : Type}.
Variable O : fops F.
Variable T : trig_ops F.
Variable junk : nat -> F.

Lemma fill_table_ok : forall i, 4 <= i -> let m := 2 ^ i in
  exists t, fill_table O T m (m / 4) (m / 8) (m / 4 - 2) (malloc junk (6 * (m / 4 - 2))) = Ok t /\ table_for O T i t.
Proof.
  intros i I m. unfold table_for. fold m.
  assert (E : exists m8, m = 8 * m8 /\ 2 <= m8).
  { exists (2 ^ (i - 3)). split; [unfold m; replace i with (3 + (i - 3)) at 1 by lia; rewrite Z.pow_add_r by lia; reflexivity|].
    change 2 with (2 ^ 1) at 1. apply Z.pow_le_mono_r; lia. }
  destruct E as [m8 [E P8]]. replace (m / 4) with (2 * m8) by lia. replace (m / 8) with m8 by lia.
  clearbody m. clear I i. set (m4 := 2 * m8) in *. set (nel := m4 - 2) in *. unfold fill_table.
  match goal with |- context [for_up 1 m4 ?f _] => set (body := f) end.
  destruct (for_up_inv (list F * Z) (fun n '(t, k) => k = (if n <=? m8 then n - 1 else n - 2) /\ lenZ t = 6 * nel /\
      forall n', 1 <= n' < n -> n' <> m8 ->
        let c := t_cos T (t_angle T n' m) in let s := t_sin T (t_angle T n' m) in
        let c3 := t_cos T (t_angle T (3 * n') m) in let s3 := t_sin T (t_angle T (3 * n') m) in
        getZ t (slot m8 n') = Ok c /\
        getZ t (nel + slot m8 n') = Ok (t_neg T (f_add O s c)) /\
        getZ t (2 * nel + slot m8 n') = Ok (f_sub O s c) /\
        getZ t (3 * nel + slot m8 n') = Ok c3 /\
        getZ t (4 * nel + slot m8 n') = Ok (t_neg T (f_add O s3 c3)) /\
        getZ t (5 * nel + slot m8 n') = Ok (f_sub O s3 c3))
    body 1 m4 (malloc junk (6 * nel), 0) ltac:(lia)) as [[t k] (-> & _ & Lt & Vt)].
  - split; [destruct (Z.leb_spec 1 m8); lia|]. split; [apply malloc_len; lia|]. intros n' N; lia.
  - intros n [t k] N (-> & Lt & Vt). unfold body. destruct (Z.eqb_spec n m8) as [En|Nn].
    + exists (t, if n <=? m8 then n - 1 else n - 2). split; [reflexivity|]. split; [|split; [exact Lt|]].
      * destruct (Z.leb_spec n m8), (Z.leb_spec (n + 1) m8); lia.
      * intros n' N' M'. apply Vt; lia.
    + set (k := if n <=? m8 then n - 1 else n - 2).
      assert (K : 0 <= k < nel) by (unfold k, nel, m4; destruct (Z.leb_spec n m8); lia).
      repeat (rewrite setZ_ok by (rewrite ?lenZ_upd; lia); cbn [bind]).
      eexists. split; [reflexivity|]. split; [|split; [now rewrite !lenZ_upd|]].
      * unfold k. destruct (Z.leb_spec n m8), (Z.leb_spec (n + 1) m8); lia.
      * intros n' N' M'. cbv zeta. rewrite !getZ_upd by (rewrite ?lenZ_upd; lia).
        destruct (Z.eq_dec n' n) as [->|Nn'].
        -- replace (slot m8 n) with k by (unfold k, slot; destruct (Z.leb_spec n m8), (Z.ltb_spec n m8); lia).
           clearbody k nel. clear - K. rewrite ?Z.eqb_refl.
           repeat match goal with |- context [?a =? ?b] =>
             replace (a =? b) with false by (symmetry; apply Z.eqb_neq; lia) end.
           repeat split; reflexivity.
        -- assert (H : 0 <= slot m8 n' < nel /\ slot m8 n' <> k)
             by (unfold k, slot, nel, m4; destruct (Z.leb_spec n m8), (Z.ltb_spec n' m8); lia).
           specialize (Vt n' ltac:(lia) M'). cbv zeta in Vt. set (s := slot m8 n') in *. clearbody k nel s.
           revert Vt. clear - K H.
           repeat match goal with |- context [?a =? ?b] =>
             replace (a =? b) with false by (symmetry; apply Z.eqb_neq; lia) end.
           intros Vt. exact Vt.
  - cbn [bind]. exists t. split; [reflexivity|]. split; [exact Lt|exact Vt].
Qed.

Lemma tables_ok : forall l, 0 <= l -> exists tab, trig_tables O T junk l = Ok tab /\ tables_for O T l tab.
Proof.
  intros l L. unfold trig_tables. destruct (Z.ltb_spec l 4).
  - exists []. split; [reflexivity|]. intros i I. lia.
  - match goal with |- context [for_down l 3 ?f _] => set (body := f) end.
    destruct (for_down_inv (list (list F)) (fun k tab => lenZ tab = (8 * l - 3) / 8 /\
        forall i, k < i <= l -> exists t, getZ tab (i - 4) = Ok t /\ table_for O T i t)
      body l 3 (repeat [] (Z.to_nat ((8 * l - 3) / 8))) ltac:(lia)) as [tab (-> & _ & Vt)].
    + split; [unfold lenZ; rewrite repeat_length; lia|]. intros i I; lia.
    + intros k tab K [Lt Vt]. unfold body.
      destruct (fill_table_ok k ltac:(lia)) as [t [E Ht]].
      rewrite !Z.div_div by lia. change (2 * 2) with 4. change (4 * 2) with 8.
      rewrite E. cbn [bind]. rewrite setZ_ok by lia. eexists. split; [reflexivity|]. split; [now rewrite lenZ_upd|].
      intros i I. rewrite getZ_upd by lia. destruct (Z.eqb_spec (k - 4) (i - 4)).
      * exists t. split; [reflexivity|]. now replace i with k by lia.
      * apply Vt. lia.
    + exists tab. split; [reflexivity|]. intros i I. apply Vt. lia.
Qed.

(** * The constructor *)

Lemma count_ok : forall l fuel k, (l < fuel)%nat -> count_bits fuel (2 ^ Z.of_nat l) k = Ok (k + Z.of_nat l).
Proof.
  induction l as [|l IH]; intros fuel k H; (destruct fuel as [|fuel]; [lia|]); cbn [count_bits].
  - change (1 <? 2 ^ Z.of_nat 0) with false. cbv iota. change (Z.of_nat 0) with 0. now rewrite Z.add_0_r.
  - rewrite pow2_S. pose proof (pow2_pos l). destruct (Z.ltb_spec 1 (2 * 2 ^ Z.of_nat l)); [|lia].
    rewrite Z.shiftr_div_pow2 by lia. change (2 ^ 1) with 2. rewrite Z.mul_comm, Z.div_mul by lia.
    rewrite IH by lia. f_equal. lia.
Qed.

Definition ready (l : nat) (f : srfft F) : Prop :=
  s_n f = 2 ^ Z.of_nat l /\ s_logn f = Z.of_nat l /\ tables_for O T (Z.of_nat l) (s_tab f) /\
  lenZ (s_brseed f) = 2 ^ Z.of_nat (upper l) /\
  forall i, 0 <= i < 2 ^ Z.of_nat (upper l) -> getZ (s_brseed f) i = Ok (rev_bits (upper l) i).

Lemma new_ok : forall junk_int l n, (1 <= l < 32)%nat -> Z.quot n 2 = 2 ^ Z.of_nat l ->
  exists f, srfft_new O T junk junk_int n = Ok f /\ ready l f.
Proof.
  intros ji l n L E. unfold srfft_new. rewrite E.
  assert (A : Z.land (2 ^ Z.of_nat l) (2 ^ Z.of_nat l - 1) = 0).
  { replace (2 ^ Z.of_nat l - 1) with (Z.ones (Z.of_nat l)) by (rewrite Z.ones_equiv; lia).
    rewrite Z.land_ones by lia. apply Z_mod_same_full. }
  rewrite A. assert (2 <= 2 ^ Z.of_nat l) by (change 2 with (2 ^ 1) at 1; apply Z.pow_le_mono_r; lia).
  destruct (Z.leb_spec (2 ^ Z.of_nat l) 1); [lia|]. cbn [Z.eqb negb orb check bind].
  rewrite count_ok by lia. cbn [bind Z.add]. destruct (seeds_ok ji l ltac:(lia)) as [b (Eb & Lb & Vb)].
  replace (Z.of_nat l) with (0 + Z.of_nat l) in Eb by lia.
  destruct (tables_ok (Z.of_nat l) ltac:(lia)) as [tab (Et & Vt)].
  change (0 + Z.of_nat l) with (Z.of_nat l) in *. rewrite Eb. cbn [bind]. rewrite Et. cbn [bind].
  eexists. split; [reflexivity|]. split; [reflexivity|]. split; [reflexivity|]. split; [exact Vt|]. split; [exact Lb|exact Vb].
Qed.

Lemma not_power : forall n, 1 < n -> Z.land n (n - 1) = 0 -> n = 2 ^ Z.log2 n.
Proof.
  intros n N E. destruct (Z.log2_spec n ltac:(lia)) as [A B].
  destruct (Z.eq_dec n (2 ^ Z.log2 n)) as [|Ne]; [assumption|]. exfalso.
  assert (H : Z.testbit (Z.land n (n - 1)) (Z.log2 n) = true).
  { rewrite Z.land_spec. rewrite Z.bit_log2 by lia. cbn [andb].
    replace (Z.log2 n) with (Z.log2 (n - 1)); [apply Z.bit_log2; lia|].
    apply Z.log2_unique; [apply Z.log2_nonneg|]. lia. }
  rewrite E, Z.bits_0 in H. discriminate.
Qed.

Lemma new_checked : forall junk_int n, n <= int_max ->
  srfft_new O T junk junk_int n = Fault Assert \/
  exists l f, (1 <= l < 32)%nat /\ Z.quot n 2 = 2 ^ Z.of_nat l /\ srfft_new O T junk junk_int n = Ok f /\ ready l f.
Proof.
  intros ji n N. destruct (Z.land (Z.quot n 2) (Z.quot n 2 - 1) =? 0) eqn:E1.
  - destruct (Z.leb_spec (Z.quot n 2) 1) as [H|H].
    + left. unfold srfft_new. rewrite E1. destruct (Z.leb_spec (Z.quot n 2) 1); [reflexivity|lia].
    + right. apply Z.eqb_eq in E1. pose proof (not_power _ H E1) as P.
      assert (Q : Z.quot n 2 < 2 ^ 31).
      { unfold int_max in N. destruct (Z.le_gt_cases 0 n); [rewrite Z.quot_div_nonneg by lia; lia|].
        pose proof (Z.quot_le_mono n 0 2 ltac:(lia) ltac:(lia)). cbn in *. lia. }
      assert (L : 0 < Z.log2 (Z.quot n 2) < 31).
      { split; [apply Z.log2_pos; lia|apply Z.log2_lt_pow2; lia]. }
      destruct (new_ok ji (Z.to_nat (Z.log2 (Z.quot n 2))) n ltac:(lia)) as [f [Ef Rf]].
      { rewrite Z2Nat.id by lia. exact P. }
      exists (Z.to_nat (Z.log2 (Z.quot n 2))), f. split; [lia|]. split; [rewrite Z2Nat.id by lia; exact P|]. auto.
  - left. unfold srfft_new. rewrite E1. reflexivity.
Qed.
End Tables.
