(** Frames, windows and the power spectrum. *)
From Coq Require Import ZArith List Bool Lia.
From Verif.Base Require Import Prelude Lemmas.
From Verif.Model Require Import Arith Vector Fbank.
From Verif.Spec Require Import AudioSpec.
From Verif.Proof Require Import Loop.
Import ListNotations.
Open Scope Z_scope.
Ltac Zify.zify_post_hook ::= Z.div_mod_to_equations.

(** * Rounding up to a power of two *)

(** Bit [i] of [x] tells whether [m] has a bit among [i .. i+a-1]. *)
Definition spreads (m x a : Z) : Prop :=
  forall i, 0 <= i -> (Z.testbit x i = true <-> exists j, 0 <= j < a /\ Z.testbit m (i + j) = true).

Lemma spreads_step : forall m x a s, 0 <= s <= a -> spreads m x a ->
  spreads m (Z.lor x (Z.shiftr x s)) (a + s).
Proof.
  intros m x a s Hs H i Hi. rewrite Z.lor_spec, Z.shiftr_spec, orb_true_iff by lia.
  rewrite (H i Hi), (H (i + s)) by lia. split.
  - intros [[j [Hj T]]|[j [Hj T]]].
    + exists j. split; [lia|assumption].
    + exists (s + j). split; [lia|]. rewrite Z.add_assoc. assumption.
  - intros [j [Hj T]]. destruct (Z_lt_le_dec j a).
    + left. exists j. split; [lia|assumption].
    + right. exists (j - s). split; [lia|]. replace (i + s + (j - s)) with (i + j) by lia. assumption.
Qed.

Lemma spreads_one : forall m, spreads m m 1.
Proof.
  intros m i Hi. split.
  - intros T. exists 0. rewrite Z.add_0_r. split; [lia|assumption].
  - intros [j [Hj T]]. replace (i + j) with i in T by lia. assumption.
Qed.

Lemma spreads_ones : forall m x, 0 <= m < 2 ^ 31 -> 0 <= x -> spreads m x 32 ->
  x = if m =? 0 then 0 else 2 ^ (Z.log2 m + 1) - 1.
Proof.
  intros m x Hm Hx H. destruct (Z.eqb_spec m 0) as [->|N].
  - apply Z.bits_inj'. intros i Hi. rewrite Z.bits_0. destruct (Z.testbit x i) eqn:T; auto.
    apply (H i Hi) in T. destruct T as [j [_ T]]. rewrite Z.bits_0 in T. discriminate.
  - assert (L : 0 <= Z.log2 m < 31).
    { split; [apply Z.log2_nonneg|]. apply Z.log2_lt_pow2; lia. }
    replace (2 ^ (Z.log2 m + 1) - 1) with (Z.ones (Z.log2 m + 1)) by (rewrite Z.ones_equiv; lia).
    apply Z.bits_inj'. intros i Hi.
    rewrite Z.testbit_ones by lia. 
    destruct (Z.leb_spec 0 i); [|lia]. cbn [andb].
    destruct (Z.ltb_spec i (Z.log2 m + 1)).
    + apply (H i Hi). exists (Z.log2 m - i). split; [lia|].
      replace (i + (Z.log2 m - i)) with (Z.log2 m) by lia. apply Z.bit_log2. lia.
    + destruct (Z.testbit x i) eqn:T; auto. apply (H i Hi) in T. destruct T as [j [Hj T]].
      rewrite Z.bits_above_log2 in T; [discriminate|lia|lia].
Qed.

Lemma round_up_ok : forall n, 1 <= n <= 2 ^ 30 ->
  exists k, round_up n = Ok (2 ^ k) /\ 0 <= k /\ n <= 2 ^ k /\
    (forall j, 0 <= j -> n <= 2 ^ j -> 2 ^ k <= 2 ^ j).
Proof.
  intros n H. unfold round_up. destruct (Z.ltb_spec 0 n); [|lia]. cbn [check bind].
  set (m := n - 1).
  set (x1 := Z.lor m (Z.shiftr m 1)). set (x2 := Z.lor x1 (Z.shiftr x1 2)).
  set (x3 := Z.lor x2 (Z.shiftr x2 4)). set (x4 := Z.lor x3 (Z.shiftr x3 8)).
  set (x5 := Z.lor x4 (Z.shiftr x4 16)).
  assert (Hm : 0 <= m < 2 ^ 30) by (unfold m; lia).
  assert (S5 : spreads m x5 32).
  { apply (spreads_step m x4 16 16); [lia|]. apply (spreads_step m x3 8 8); [lia|].
    apply (spreads_step m x2 4 4); [lia|]. apply (spreads_step m x1 2 2); [lia|].
    apply (spreads_step m m 1 1); [lia|]. apply spreads_one. }
  assert (P : forall x s, 0 <= x -> 0 <= Z.lor x (Z.shiftr x s)).
  { intros x s Hx. apply Z.lor_nonneg. split; [assumption|]. apply Z.shiftr_nonneg. assumption. }
  assert (P5 : 0 <= x5) by (unfold x5, x4, x3, x2, x1; repeat apply P; lia).
  apply spreads_ones in S5; [|lia|assumption]. rewrite S5. clear S5 P P5.
  assert (Em : n = m + 1) by (unfold m; lia). clearbody m. clear x1 x2 x3 x4 x5. subst n.
  destruct (Z.eqb_spec m 0) as [-> | N].
  - exists 0. split; [reflexivity|]. split; [lia|]. split; [cbn; lia|].
    intros j Hj _. cbn. pose proof (Z.pow_pos_nonneg 2 j). lia.
  - assert (L : 0 <= Z.log2 m < 30) by (split; [apply Z.log2_nonneg | apply Z.log2_lt_pow2; lia]).
    pose proof (Z.log2_spec m ltac:(lia)) as [L1 L2]. unfold Z.succ in L2.
    exists (Z.log2 m + 1). replace (2 ^ (Z.log2 m + 1) - 1 + 1) with (2 ^ (Z.log2 m + 1)) by lia.
    assert (B : 2 ^ (Z.log2 m + 1) <= 2 ^ 30) by (apply Z.pow_le_mono_r; lia).
    change (2 ^ 30) with 1073741824 in B.
    replace (in_int32 (2 ^ (Z.log2 m + 1))) with true by (symmetry; apply in_int32_iff; lia).
    cbn [check bind]. split; [reflexivity|]. split; [lia|]. split; [lia|].
    intros j Hj Hn. apply Z.pow_le_mono_r; [lia|].
    destruct (Z_lt_le_dec (Z.log2 m) j); [lia|]. exfalso.
    assert (2 ^ j <= 2 ^ Z.log2 m) by (apply Z.pow_le_mono_r; lia). lia.
Qed.

(** * Window processing *)

Section Float.
Context {F : Type} (O : fops F).

Lemma sum_loop : forall (w : list F),
  for_up 0 (lenZ w) (fun s i => x <- vget w i ;; Ok (f_add O s x)) (f_zero O)
  = Ok (fold_left (f_add O) w (f_zero O)).
Proof.
  intros w.
  destruct (for_up_inv F (fun k s => s = fold_left (f_add O) (firstn (Z.to_nat k) w) (f_zero O))
    (fun s i => x <- vget w i ;; Ok (f_add O s x)) 0 (lenZ w) (f_zero O)) as [s [E I]].
  - apply lenZ_nonneg.
  - reflexivity.
  - intros k s Hk ->. rewrite (vget_nth _ w k (f_zero O)) by lia. cbn [bind].
    eexists. split; [reflexivity|].
    replace (Z.to_nat (k + 1)) with (S (Z.to_nat k)) by lia.
    assert (X : firstn (S (Z.to_nat k)) w = firstn (Z.to_nat k) w ++ [nth (Z.to_nat k) w (f_zero O)]).
    { assert (L : (Z.to_nat k < length w)%nat) by (unfold lenZ in Hk; lia).
      clear - L. revert L. generalize (Z.to_nat k). induction w as [|y w IH]; intros n L; [cbn in L; lia|].
      destruct n; [reflexivity|]. cbn [length] in L.
      cbn [firstn nth app]. f_equal. apply IH. lia. }
    rewrite X, fold_left_app. reflexivity.
  - rewrite E, I. unfold lenZ. rewrite Nat2Z.id, firstn_all. reflexivity.
Qed.

(** A loop that replaces every element by a function of itself and its index. *)
Lemma map_loop : forall (g : nat -> F -> F) (body : list F -> Z -> res (list F)) (w : list F) d,
  (forall v k, 0 <= k < lenZ v -> lenZ v = lenZ w ->
     body v k = Ok (upd v (Z.to_nat k) (g (Z.to_nat k) (nth (Z.to_nat k) v d)))) ->
  exists w', for_up 0 (lenZ w) body w = Ok w' /\ length w' = length w /\
    forall i, (i < length w)%nat -> nth i w' d = g i (nth i w d).
Proof.
  intros g body w d H.
  destruct (for_up_inv (list F) (fun k v => length v = length w /\
      forall i, (i < length w)%nat -> nth i v d = if Nat.ltb i (Z.to_nat k) then g i (nth i w d) else nth i w d)
    body 0 (lenZ w) w) as [v [E [L I]]].
  - apply lenZ_nonneg.
  - split; [reflexivity|]. intros i _. reflexivity.
  - intros k v Hk [L I]. rewrite H by (unfold lenZ in *; lia).
    eexists. split; [reflexivity|]. split; [rewrite upd_length; assumption|].
    intros i Hi. rewrite nth_upd by (unfold lenZ in *; lia).
    destruct (Nat.eqb_spec (Z.to_nat k) i) as [<-|N].
    + rewrite I by assumption. destruct (Nat.ltb_spec (Z.to_nat k) (Z.to_nat k)); [lia|].
      destruct (Nat.ltb_spec (Z.to_nat k) (Z.to_nat (k + 1))); [reflexivity|lia].
    + rewrite I by assumption.
      destruct (Nat.ltb_spec i (Z.to_nat k)), (Nat.ltb_spec i (Z.to_nat (k + 1))); try reflexivity; lia.
  - exists v. split; [assumption|]. split; [assumption|]. intros i Hi. rewrite I by assumption.
    destruct (Nat.ltb_spec i (Z.to_nat (lenZ w))); [reflexivity|unfold lenZ in *; lia].
Qed.

Lemma process_window_ok : forall wf w d, w <> [] -> length wf = length w ->
  exists out, process_window O wf w = Ok out /\ length out = length w /\
    let mean := f_div O (fold_left (f_add O) w (f_zero O)) (f_int O (lenZ w)) in
    let x := fun i => f_sub O (nth i w d) mean in
    forall i, (i < length w)%nat ->
      nth i out d = f_mul O (f_preemph O (x i) (x (i - 1)%nat)) (nth i wf d).
Proof.
  intros wf w d N L. unfold process_window. rewrite sum_loop. cbn [bind].
  set (mean := f_div O _ _). cbv zeta.
  assert (LP : (0 < length w)%nat) by (destruct w; [congruence|cbn [length]; lia]).
  destruct (map_loop (fun _ y => f_sub O y mean)
     (fun w0 i => x <- vget w0 i ;; vset w0 i (f_sub O x mean)) w d) as [w1 [E1 [L1 I1]]].
  { intros v k Hk _. rewrite (vget_nth _ v k d) by lia. cbn [bind]. apply vset_ok. lia. }
  rewrite E1. cbn [bind]. clear E1.
  set (x := fun i => f_sub O (nth i w d) mean) in *.
  destruct (for_down_inv (list F) (fun k v => length v = length w /\
      forall i, (i < length w)%nat ->
        nth i v d = if Nat.leb i (Z.to_nat k) then x i else f_preemph O (x i) (x (i - 1)%nat))
     (fun w0 i => x0 <- vget w0 i ;; y <- vget w0 (i - 1) ;; vset w0 i (f_preemph O x0 y))
     (lenZ w - 1) 0 w1) as [w2 [E2 [L2 I2]]].
  { unfold lenZ. lia. }
  { split; [assumption|]. intros i Hi. rewrite I1 by assumption.
    destruct (Nat.leb_spec i (Z.to_nat (lenZ w - 1))); [reflexivity|unfold lenZ in *; lia]. }
  { intros k v Hk [Lv Iv]. assert (Hv : lenZ v = lenZ w) by (unfold lenZ; lia).
    rewrite (vget_nth _ v k d), (vget_nth _ v (k - 1) d) by lia. cbn [bind].
    rewrite vset_ok by lia. eexists. split; [reflexivity|]. split; [rewrite upd_length; assumption|].
    intros i Hi. rewrite nth_upd by (unfold lenZ in *; lia).
    destruct (Nat.eqb_spec (Z.to_nat k) i) as [<-|Nk].
    - destruct (Nat.leb_spec (Z.to_nat k) (Z.to_nat (k - 1))); [lia|].
      replace (Z.to_nat (k - 1)) with (Z.to_nat k - 1)%nat by lia.
      rewrite !Iv by lia.
      destruct (Nat.leb_spec (Z.to_nat k) (Z.to_nat k)); [|lia].
      destruct (Nat.leb_spec (Z.to_nat k - 1) (Z.to_nat k)); [|lia]. reflexivity.
    - rewrite Iv by assumption.
      destruct (Nat.leb_spec i (Z.to_nat k)), (Nat.leb_spec i (Z.to_nat (k - 1))); try reflexivity; lia. }
  rewrite E2. cbn [bind]. clear E2.
  assert (Hv : lenZ w2 = lenZ w) by (unfold lenZ; lia).
  assert (HP : 0 < lenZ w) by (unfold lenZ; lia).
  rewrite (vget_nth _ w2 0 d) by lia. cbn [bind]. rewrite vset_ok by lia. cbn [bind].
  change (Z.to_nat 0) with 0%nat in *.
  set (w3 := upd w2 0 _).
  assert (L3 : length w3 = length w) by (unfold w3; rewrite upd_length; assumption).
  assert (I3 : forall i, (i < length w)%nat -> nth i w3 d = f_preemph O (x i) (x (i - 1)%nat)).
  { intros i Hi. unfold w3. rewrite nth_upd by lia. destruct (Nat.eqb_spec 0 i) as [<-|Ni].
    - rewrite !I2 by lia. reflexivity.
    - rewrite I2 by assumption. destruct (Nat.leb_spec i 0); [lia|reflexivity]. }
  clearbody w3.
  assert (Hw : lenZ wf = lenZ w3) by (unfold lenZ; lia).
  rewrite Hw, Z.eqb_refl. cbn [check bind].
  destruct (map_loop (fun i y => f_mul O y (nth i wf d))
     (fun w0 i => x0 <- vget w0 i ;; y <- vget wf i ;; vset w0 i (f_mul O x0 y)) w3 d) as [w4 [E4 [L4 I4]]].
  { intros v k Hk Hl. rewrite (vget_nth _ v k d), (vget_nth _ wf k d) by lia. cbn [bind]. apply vset_ok. lia. }
  exists w4. split; [assumption|]. split; [lia|].
  intros i Hi. rewrite I4 by lia. rewrite I3 by assumption. reflexivity.
Qed.

(** * Power spectrum *)

Lemma power_spectrum_ok : forall w d h, (1 <= h)%nat -> length w = (2 * h)%nat ->
  exists out, power_spectrum O w = Ok out /\ length out = length w /\
    nth 0 out d = f_mul O (nth 0 w d) (nth 0 w d) /\
    nth h out d = f_mul O (nth 1 w d) (nth 1 w d) /\
    forall i, (1 <= i < h)%nat ->
      nth i out d = f_add O (f_mul O (nth (2 * i) w d) (nth (2 * i) w d))
                            (f_mul O (nth (2 * i + 1) w d) (nth (2 * i + 1) w d)).
Proof.
  intros w d h Hh L. unfold power_spectrum.
  assert (LZ : lenZ w = 2 * Z.of_nat h) by (unfold lenZ; lia).
  rewrite LZ. destruct (Z.ltb_spec 0 (2 * Z.of_nat h)); [|lia]. cbn [check bind].
  rewrite (vget_nth _ w 0 d), (vget_nth _ w 1 d) by lia. cbn [bind].
  change (Z.to_nat 0) with 0%nat. change (Z.to_nat 1) with 1%nat.
  replace (Z.quot (2 * Z.of_nat h) 2) with (Z.of_nat h) by (rewrite Z.mul_comm, Z.quot_mul; lia).
  destruct (for_up_inv (list F) (fun k v => length v = length w /\
      (forall i, (Z.to_nat k <= i < length w)%nat -> nth i v d = nth i w d) /\
      (forall i, (1 <= i < Z.to_nat k)%nat ->
         nth i v d = f_add O (f_mul O (nth (2 * i) w d) (nth (2 * i) w d))
                             (f_mul O (nth (2 * i + 1) w d) (nth (2 * i + 1) w d))))
    (fun w0 i => re <- vget w0 (i * 2) ;; im <- vget w0 (i * 2 + 1) ;;
       vset w0 i (f_add O (f_mul O re re) (f_mul O im im))) 1 (Z.of_nat h) w) as [v [E [Lv [I1 I2]]]].
  { lia. }
  { split; [reflexivity|]. split; [reflexivity|]. intros; lia. }
  { intros k v Hk [Lv [I1 I2]]. assert (Hv : lenZ v = lenZ w) by (unfold lenZ; lia).
    rewrite (vget_nth _ v (k * 2) d), (vget_nth _ v (k * 2 + 1) d) by lia. cbn [bind].
    rewrite vset_ok by lia. eexists. split; [reflexivity|]. split; [rewrite upd_length; assumption|].
    replace (Z.to_nat (k * 2)) with (2 * Z.to_nat k)%nat by lia.
    replace (Z.to_nat (k * 2 + 1)) with (2 * Z.to_nat k + 1)%nat by lia.
    split; intros i Hi; rewrite nth_upd by lia; destruct (Nat.eqb_spec (Z.to_nat k) i) as [<-|Nk].
    - lia.
    - apply I1. lia.
    - rewrite !I1 by lia. reflexivity.
    - apply I2. lia. }
  rewrite E. cbn [bind]. assert (Hv : lenZ v = lenZ w) by (unfold lenZ; lia).
  rewrite vset_ok by lia. cbn [bind]. rewrite vset_ok by (rewrite lenZ_upd; lia).
  eexists. split; [reflexivity|]. split; [rewrite !upd_length; assumption|].
  change (Z.to_nat 0) with 0%nat. rewrite Nat2Z.id in *.
  split; [|split].
  - rewrite nth_upd by (rewrite upd_length; lia). destruct (Nat.eqb_spec h 0); [lia|].
    rewrite nth_upd by lia. reflexivity.
  - rewrite nth_upd by (rewrite upd_length; lia). rewrite Nat.eqb_refl. reflexivity.
  - intros i Hi. rewrite nth_upd by (rewrite upd_length; lia). destruct (Nat.eqb_spec h i); [lia|].
    rewrite nth_upd by lia. destruct (Nat.eqb_spec 0 i); [lia|]. apply I2. lia.
Qed.

End Float.
