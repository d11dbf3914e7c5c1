(** Sliding-window mean normalisation. *)
From Coq Require Import ZArith Reals List Bool Lia Lra.
From Verif.Base Require Import Prelude Lemmas.
From Verif.Model Require Import Arith Vector Nnet Cmvn Exact.
From Verif.Spec Require Import RealSpec.
From Verif.Proof Require Import Loop.
Import ListNotations.
Open Scope R_scope.

Lemma map2_length : forall A B C (f : A -> B -> C) a b, length a = length b -> length (map2 f a b) = length a.
Proof. induction a; destruct b; cbn; intros E; try discriminate; auto. Qed.

Lemma nth_map2 : forall A B C (f : A -> B -> C) a b i da db dc, length a = length b -> (i < length a)%nat ->
  nth i (map2 f a b) dc = f (nth i a da) (nth i b db).
Proof.
  induction a as [|x a IH]; intros [|y b] i da db dc E L; cbn in *; try discriminate; try lia.
  destruct i; [reflexivity|]. apply IH; lia.
Qed.

Lemma nth_firstn' : forall A n (l : list A) i d, (i < n)%nat -> nth i (firstn n l) d = nth i l d.
Proof.
  induction n as [|n IH]; intros l i d L; [lia|]. destruct l; [reflexivity|]. destruct i; [reflexivity|].
  cbn. apply IH. lia.
Qed.

Lemma nth_skipn' : forall A n (l : list A) i d, nth i (skipn n l) d = nth (n + i) l d.
Proof.
  induction n as [|n IH]; intros l i d; [reflexivity|]. destruct l; [destruct i; reflexivity|]. cbn. apply IH.
Qed.

Lemma vget_R : forall (v : list R) i, (0 <= i < lenZ v)%Z -> vget v i = Ok (nth (Z.to_nat i) v 0).
Proof. intros. now apply vget_nth. Qed.

Lemma le_true : forall x y, x <= y -> real_le x y = true.
Proof. intros x y H. unfold real_le. destruct (Rle_dec x y); [reflexivity|contradiction]. Qed.
Lemma le_false : forall x y, ~ x <= y -> real_le x y = false.
Proof. intros x y H. unfold real_le. destruct (Rle_dec x y); [contradiction|reflexivity]. Qed.
Lemma lt_true : forall x y, x < y -> real_lt x y = true.
Proof. intros x y H. unfold real_lt. destruct (Rlt_dec x y); [reflexivity|contradiction]. Qed.
Lemma lt_false : forall x y, ~ x < y -> real_lt x y = false.
Proof. intros x y H. unfold real_lt. destruct (Rlt_dec x y); [contradiction|reflexivity]. Qed.

(** Sums of a column over the first rows. *)
Definition prefix (raw : list (list R)) (n j : nat) : R := total (map (fun row => nth j row 0) (firstn n raw)).

Lemma total_app : forall a b, total (a ++ b) = total a + total b.
Proof. unfold total. induction a as [|x a IH]; intros b; cbn; [lra|]. rewrite IH. lra. Qed.

Lemma prefix_S : forall raw n j, (n < length raw)%nat ->
  prefix raw (S n) j = prefix raw n j + nth j (nth n raw []) 0.
Proof.
  intros raw n j L. unfold prefix.
  assert (E : firstn (S n) raw = firstn n raw ++ [nth n raw []]).
  { revert n L. induction raw as [|r raw IH]; intros n L; [cbn in L; lia|]. destruct n; [reflexivity|].
    cbn in L. change (firstn (S (S n)) (r :: raw)) with (r :: firstn (S n) raw).
    rewrite (IH n) by lia. reflexivity. }
  rewrite E, map_app, total_app. unfold total at 2. cbn [map fold_right]. lra.
Qed.

Lemma window_total : forall raw i j, (i < length raw)%nat ->
  total (map (fun row => nth j row 0) (window raw i)) = prefix raw (i + 1) j - prefix raw (i + 1 - 600) j.
Proof.
  intros raw i j L. unfold window, prefix.
  assert (E : forall (l : list (list R)) n m, (n <= m)%nat -> firstn m l = firstn n l ++ skipn n (firstn m l)).
  { intros l n m N. rewrite <- (firstn_skipn n (firstn m l)) at 1. rewrite firstn_firstn. now rewrite Nat.min_l by lia. }
  rewrite (E raw (i + 1 - 600)%nat (i + 1)%nat) at 2 by lia. rewrite map_app, total_app. lra.
Qed.

Lemma window_length : forall raw i, (i < length raw)%nat -> length (window raw i) = Nat.min (i + 1) 600.
Proof. intros raw i L. unfold window. rewrite skipn_length, firstn_length. lia. Qed.

Section Run.
Variable raw : list (list R).
Variable global : list R.
Hypothesis Raw : Forall (fun row => length row = 40%nat) raw.
Hypothesis Glob : length global = 41%nat.
Hypothesis Count : 0 < nth 40 global 0.

Lemma row_length : forall i, (i < length raw)%nat -> length (nth i raw []) = 40%nat.
Proof. intros i L. rewrite Forall_forall in Raw. apply Raw. now apply nth_In. Qed.

Lemma raw_row_ok : forall g st k i, (i < length raw)%nat ->
  raw_row (mk_cmvn raw g st k) (Z.of_nat i) = Ok (nth i raw []).
Proof.
  intros g st k i L. unfold raw_row. cbn [n_raw]. pose proof (vget_nth _ raw (Z.of_nat i) [] ltac:(unfold lenZ; lia)) as E.
  unfold vget in E. rewrite E. now rewrite Nat2Z.id.
Qed.

Definition sums (i : nat) (st : list R) : Prop :=
  length st = 41%nat /\
  (forall j, (j < 40)%nat -> nth j st 0 = prefix raw i j - prefix raw (i - 600) j) /\
  nth 40 st 0 = INR (Nat.min i 600).

Lemma add_range_ok : forall a st x, length st = 41%nat -> length x = 40%nat ->
  exists st', add_range rwide a st x = Ok st' /\ length st' = 41%nat /\
    (forall j, (j < 40)%nat -> nth j st' 0 = nth j st 0 + IZR a * nth j x 0) /\ nth 40 st' 0 = nth 40 st 0.
Proof.
  intros a st x Ls Lx. unfold add_range, lenZ. rewrite Ls, Lx. change (fbank_dim <=? Z.of_nat 41)%Z with true.
  change (fbank_dim =? Z.of_nat 40)%Z with true. cbn [check bind]. change (Z.to_nat fbank_dim) with 40%nat.
  set (f := fun s0 x0 => _).
  assert (Lf : length (firstn 40 st) = 40%nat) by (rewrite firstn_length; lia).
  eexists. split; [reflexivity|].
  assert (Lm : length (map2 f (firstn 40 st) x) = 40%nat) by (rewrite map2_length; lia).
  split; [rewrite app_length, skipn_length; lia|]. split.
  - intros j J. rewrite app_nth1 by lia. rewrite (nth_map2 _ _ _ _ _ _ _ 0 0) by lia.
    rewrite nth_firstn' by lia. unfold f. cbn [wd_add wd_mul wd_int wd_of rwide]. destruct (Z.eqb_spec a 1) as [->|_]; lra.
  - rewrite app_nth2 by lia. rewrite Lm, nth_skipn'. f_equal.
Qed.

Lemma bump : forall st x, length st = 41%nat ->
  vget st fbank_dim = Ok (nth 40 st 0) /\ vset st fbank_dim x = Ok (upd st 40 x) /\
  length (upd st 40 x) = 41%nat /\ (forall j, (j < 40)%nat -> nth j (upd st 40 x) 0 = nth j st 0) /\
  nth 40 (upd st 40 x) 0 = x.
Proof.
  intros st x L. split; [apply vget_R; unfold lenZ, fbank_dim; rewrite L; lia|].
  split; [apply vset_ok; unfold lenZ, fbank_dim; rewrite L; lia|]. split; [now rewrite upd_length|]. split.
  - intros j J. rewrite nth_upd by lia. destruct (Nat.eqb_spec 40 j); [lia|reflexivity].
  - rewrite nth_upd by lia. reflexivity.
Qed.

Lemma compute_ok : forall i st, (i < length raw)%nat -> sums i st ->
  exists st', compute_stats rwide (mk_cmvn raw global (match i with O => [] | _ => st end) (Z.of_nat i - 1)) (Z.of_nat i)
      = Ok (st', mk_cmvn raw global st' (Z.of_nat i)) /\ sums (S i) st'.
Proof.
  intros i st L (Ls & Vs & Ns). unfold compute_stats. cbn [n_frame n_stats n_raw n_global].
  rewrite Z.eqb_refl. cbn [check bind]. rewrite raw_row_ok by assumption. cbn [bind].
  set (s0 := if (0 <=? Z.of_nat i - 1)%Z then _ else _).
  assert (E0 : exists st0, s0 = Ok st0 /\ sums i st0).
  { unfold s0. destruct i as [|i].
    - cbn -[repeat]. eexists. split; [reflexivity|]. split; [reflexivity|]. split; [|cbn; reflexivity].
      intros j J. change (0 - 600)%nat with 0%nat. rewrite nth_repeat. lra.
    - destruct (Z.leb_spec 0 (Z.of_nat (S i) - 1)); [|lia]. unfold lenZ. rewrite Ls.
      change (Z.of_nat 41 =? fbank_dim + 1)%Z with true. cbn [check bind]. exists st.
      split; [cbn; now rewrite map_id|]. split; [exact Ls|split; assumption]. }
  destruct E0 as [st0 [-> (L0 & V0 & N0)]]. cbn [bind].
  pose proof (row_length i L) as Lr. unfold lenZ at 1. rewrite Lr. change (Z.of_nat 40 =? fbank_dim)%Z with true.
  cbn [check bind].
  destruct (add_range_ok 1 st0 (nth i raw []) L0 Lr) as [st1 (-> & L1 & V1 & N1)]. cbn [bind].
  destruct (bump st1 (wd_add rwide (nth 40 st1 0) (wd_int rwide 1)) L1) as (-> & E2 & L2 & V2 & N2). cbn [bind].
  rewrite E2. cbn [bind]. set (st2 := upd st1 40 _) in *.
  assert (P := prefix_S raw i).
  destruct (Z.leb_spec 0 (Z.of_nat i - cmvn_window)) as [G|G]; unfold cmvn_window in *.
  - replace (Z.of_nat i - 600)%Z with (Z.of_nat (i - 600)) by lia.
    rewrite raw_row_ok by lia. cbn [bind].
    destruct (add_range_ok (-1) st2 (nth (i - 600) raw []) L2 (row_length (i - 600)%nat ltac:(lia))) as [st3 (-> & L3 & V3 & N3)].
    cbn [bind]. destruct (bump st3 (wd_sub rwide (nth 40 st3 0) (wd_int rwide 1)) L3) as (-> & E4 & L4 & V4 & N4).
    cbn [bind]. rewrite E4. cbn [bind]. set (st4 := upd st3 40 _) in *.
    exists (map (wd_to rwide) st4). split; [reflexivity|]. cbn [wd_to rwide]. rewrite map_id.
    split; [exact L4|]. split.
    + intros j J. rewrite V4, V3, V2, V1, V0 by assumption. rewrite P by assumption.
      replace (S i - 600)%nat with (S (i - 600)) by lia. rewrite (prefix_S raw (i - 600)) by lia. lra.
    + rewrite N4. cbn [wd_sub wd_int rwide]. rewrite N3, N2. cbn [wd_add wd_int rwide]. rewrite N1, N0.
      rewrite !Nat.min_r by lia. lra.
  - cbn [bind]. exists (map (wd_to rwide) st2). split; [reflexivity|]. cbn [wd_to rwide]. rewrite map_id.
    split; [exact L2|]. split.
    + intros j J. rewrite V2, V1, V0 by assumption. rewrite P by assumption.
      replace (S i - 600)%nat with (i - 600)%nat by lia. lra.
    + rewrite N2. cbn [wd_add wd_int rwide]. rewrite N1, N0. rewrite !Nat.min_l by lia. rewrite S_INR. lra.
Qed.

Lemma smooth_ok : forall i st f, sums (S i) st ->
  let n := Nat.min (S i) 600 in let extra := Nat.min 200 (600 - n) in
  exists st', smooth_stats rops rwide (mk_cmvn raw global st f) st = Ok st' /\ length st' = 41%nat /\
    (forall j, (j < 40)%nat -> nth j st' 0 = nth j st 0 + INR extra * (nth j global 0 / nth 40 global 0)) /\
    nth 40 st' 0 = INR (n + extra).
Proof.
  intros i st f (Ls & Vs & Ns) n extra. unfold smooth_stats. cbn [n_global]. unfold lenZ. rewrite Ls, Glob.
  change (Z.of_nat 41 =? fbank_dim + 1)%Z with true. cbn [check bind].
  destruct (bump st 0 Ls) as (-> & _). cbn [bind]. destruct (bump global 0 Glob) as (EG & _).
  cbn [wd_of wd_le wd_int wd_lt wd_sub wd_div wd_to rwide]. rewrite Ns. fold n. unfold cmvn_window, cmvn_global.
  assert (Hn : INR n <= 600).
  { replace 600 with (INR 600) by (rewrite INR_IZR_INZ; reflexivity). apply le_INR. unfold n. lia. }
  rewrite le_true by exact Hn. cbn [check bind].
  destruct (Nat.eq_dec n 600) as [E|N].
  - rewrite le_true by (rewrite E, INR_IZR_INZ; cbn; lra).
    exists st. split; [reflexivity|]. split; [exact Ls|]. unfold extra. rewrite E. cbn [Nat.sub Nat.min].
    split; [intros j J; change (INR 0) with 0; lra|]. rewrite Nat.add_0_r. fold n in Ns. now rewrite Ns, E.
  - assert (Hlt : INR n < 600).
    { replace 600 with (INR 600) by (rewrite INR_IZR_INZ; reflexivity). apply lt_INR. unfold n in *. lia. }
    rewrite le_false by lra. rewrite EG. cbn [bind]. rewrite lt_true by exact Count. cbn [check bind].
    assert (Ee : (if real_lt 200 (600 - INR n) then 200 else 600 - INR n) = INR extra).
    { assert (E6 : 600 - INR n = INR (600 - n)).
      { rewrite minus_INR by (unfold n; lia). rewrite (INR_IZR_INZ 600). cbn. lra. }
      rewrite E6. replace 200 with (INR 200) by (rewrite INR_IZR_INZ; reflexivity). unfold extra.
      destruct (Nat.ltb_spec 200 (600 - n)) as [H|H].
      - rewrite lt_true by now apply lt_INR. now rewrite Nat.min_l by lia.
      - rewrite lt_false; [now rewrite Nat.min_r by lia|]. apply Rle_not_lt. now apply le_INR. }
    rewrite Ee. unfold add_vec_scaled, lenZ. rewrite Ls, Glob, Z.eqb_refl. cbn [check bind].
    eexists. split; [reflexivity|]. split; [rewrite map2_length; lia|]. split.
    + intros j J. rewrite (nth_map2 _ _ _ _ _ _ _ 0 0) by lia. cbn [f_add f_mul rops]. field. lra.
    + rewrite (nth_map2 _ _ _ _ _ _ _ 0 0) by lia. cbn [f_add f_mul rops]. rewrite Ns. fold n.
      rewrite plus_INR. field. lra.
Qed.

Lemma frame_ok : forall i st, (i < length raw)%nat -> sums i st ->
  exists out st', get_frame rops rwide (mk_cmvn raw global (match i with O => [] | _ => st end) (Z.of_nat i - 1))
        (Z.of_nat i) 40 = Ok (out, mk_cmvn raw global st' (Z.of_nat i)) /\
    sums (S i) st' /\ length out = 40%nat /\
    forall j, (j < 40)%nat -> nth j out 0 = normalised raw global i j.
Proof.
  intros i st L S0. unfold get_frame. destruct (compute_ok i st L S0) as [st1 [-> S1]]. cbn [bind].
  destruct (smooth_ok i st1 (Z.of_nat i) S1) as [st2 (-> & L2 & V2 & N2)]. cbn [bind].
  rewrite raw_row_ok by assumption. cbn [bind]. pose proof (row_length i L) as Lr.
  unfold vcopy, lenZ. rewrite Lr. change (40 =? Z.of_nat 40)%Z with true. cbn [check bind].
  unfold apply_stats, lenZ. rewrite Lr, L2.
  change ((Z.of_nat 40 =? Z.of_nat 41 - 1)%Z && (Z.of_nat 40 =? fbank_dim)%Z) with true. cbn [check bind].
  destruct (bump st2 0 L2) as (-> & _). cbn [bind wd_of wd_lt wd_int wd_div wd_to wd_neg rwide]. rewrite N2.
  set (n := Nat.min (S i) 600) in *. set (extra := Nat.min 200 (600 - n)) in *.
  assert (P : 0 < INR (n + extra)) by (apply lt_0_INR; unfold n; lia).
  rewrite lt_true by exact P. cbn [check bind]. rewrite vrange_ok by (unfold lenZ; lia). cbn [bind].
  change (Z.to_nat (Z.of_nat 40)) with 40%nat. change (Z.to_nat 0) with 0%nat. cbn [skipn].
  assert (Lf : length (firstn 40 st2) = 40%nat) by (rewrite firstn_length; lia).
  unfold add_vec_scaled, lenZ. rewrite Lr, Lf, Z.eqb_refl. cbn [check bind].
  eexists. exists st1. split; [reflexivity|]. split; [exact S1|]. split; [rewrite map2_length; lia|].
  intros j J. rewrite (nth_map2 _ _ _ _ _ _ _ 0 0) by lia. rewrite nth_firstn' by assumption. rewrite V2 by assumption.
  destruct S1 as (_ & V1 & _). rewrite V1 by assumption. unfold normalised.
  rewrite window_length by assumption. rewrite window_total by assumption.
  replace (i + 1)%nat with (S i) by lia. fold n. fold extra. cbn [f_add f_mul rops]. unfold Rdiv. ring.
Qed.

Lemma frames_ok : forall k i st, (i + k <= length raw)%nat -> sums i st ->
  exists outs c, get_frames rops rwide (mk_cmvn raw global (match i with O => [] | _ => st end) (Z.of_nat i - 1))
      (seqZ (Z.of_nat i) k) = Ok (outs, c) /\ length outs = k /\
    forall m, (m < k)%nat -> length (nth m outs []) = 40%nat /\
      forall j, (j < 40)%nat -> nth j (nth m outs []) 0 = normalised raw global (i + m) j.
Proof.
  induction k as [|k IH]; intros i st L S0; [cbn; eauto 6; eexists; eexists; split; [reflexivity|]; split; [reflexivity|lia]|].
  cbn [seqZ get_frames]. unfold fbank_dim at 1.
  destruct (frame_ok i st ltac:(lia) S0) as [out [st' (-> & S1 & Lo & Vo)]]. cbn [bind].
  destruct (IH (S i) st' ltac:(lia) S1) as [outs [c (E & Ls & Vs)]].
  replace (Z.of_nat (S i) - 1)%Z with (Z.of_nat i) in E by lia.
  replace (Z.of_nat i + 1)%Z with (Z.of_nat (S i)) by lia. rewrite E. cbn [bind].
  exists (out :: outs), c. split; [reflexivity|]. split; [cbn; lia|]. intros [|m] M.
  - rewrite Nat.add_0_r. split; [exact Lo|exact Vo].
  - cbn [nth]. replace (i + S m)%nat with (S i + m)%nat by lia. apply Vs. lia.
Qed.

End Run.

Lemma in_order : forall raw global n, Forall (fun row => length row = 40%nat) raw -> length global = 41%nat ->
  0 < nth 40 global 0 -> (n <= length raw)%nat ->
  exists outs c, get_frames rops rwide (cmvn_new global raw) (seqZ 0 n) = Ok (outs, c) /\ length outs = n /\
    forall i, (i < n)%nat -> length (nth i outs []) = 40%nat /\
      forall j, (j < 40)%nat -> nth j (nth i outs []) 0 = normalised raw global i j.
Proof.
  intros raw global n Hr Hg Hc L.
  assert (S0 : sums raw 0 (repeat 0 41)).
  { split; [reflexivity|]. split; [|reflexivity]. intros j J. change (0 - 600)%nat with 0%nat. rewrite nth_repeat. lra. }
  destruct (frames_ok raw global Hr Hg Hc n 0%nat (repeat 0 41) L S0) as [outs [c H]].
  exists outs, c. exact H.
Qed.

Lemma out_of_order : forall F D (O : fops F) (W : wide_ops F D) c frame dim,
  frame <> (n_frame c + 1)%Z -> get_frame O W c frame dim = Fault Assert.
Proof.
  intros F D O W c frame dim N. unfold get_frame, compute_stats.
  destruct (Z.eqb_spec (n_frame c) (frame - 1)) as [E|_]; [lia|reflexivity].
Qed.

Lemma map_repeat' : forall A B (f : A -> B) x n, map f (repeat x n) = repeat (f x) n.
Proof. induction n; cbn; f_equal; auto. Qed.

(** A case: 700 frames of ones against a global average of zero. *)
Lemma normalised_case :
  let raw := repeat (repeat 1 40) 700 in let global := repeat 0 40 ++ [1000] in
  Forall (fun row => length row = 40%nat) raw /\ length global = 41%nat /\ 0 < nth 40 global 0 /\
  normalised raw global 99 0 = 2 / 3 /\ normalised raw global 650 7 = 0.
Proof.
  intros raw global. split; [apply Forall_forall; intros r H; apply repeat_spec in H; subst; reflexivity|].
  split; [reflexivity|]. split; [cbn; lra|].
  assert (T : forall n, total (repeat 1 n) = INR n).
  { induction n as [|n IH]; [reflexivity|]. rewrite S_INR. cbn [repeat]. unfold total in *. cbn [fold_right]. rewrite IH. lra. }
  assert (Wn : forall i j, (i < 700)%nat -> (j < 40)%nat ->
    total (map (fun row => nth j row 0) (window raw i)) = INR (Nat.min (i + 1) 600)).
  { intros i j I J. rewrite <- T. f_equal.
    assert (E : window raw i = repeat (repeat 1 40) (Nat.min (i + 1) 600)).
    { apply (nth_ext _ _ [] []); [rewrite window_length, repeat_length; [reflexivity|unfold raw; rewrite repeat_length; lia]|].
      intros k K. rewrite window_length in K by (unfold raw; rewrite repeat_length; lia).
      unfold window. rewrite nth_skipn', nth_firstn' by lia. unfold raw.
      rewrite !(nth_indep _ [] (repeat 1 40)) by (rewrite repeat_length; lia). now rewrite !nth_repeat. }
    rewrite E. rewrite map_repeat'. f_equal.
    rewrite (nth_indep _ 0 1) by (rewrite repeat_length; lia). apply nth_repeat. }
  unfold normalised. rewrite !Wn by lia. rewrite !window_length by (unfold raw; rewrite repeat_length; lia).
  assert (E : forall i j, (i < 700)%nat -> (j < 40)%nat -> nth j (nth i raw []) 0 = 1).
  { intros i j I J. unfold raw. rewrite (nth_indep _ [] (repeat 1 40)) by (rewrite repeat_length; lia).
    rewrite nth_repeat. rewrite (nth_indep _ 0 1) by (rewrite repeat_length; lia). apply nth_repeat. }
  rewrite !E by lia.
  change (Nat.min (99 + 1) 600) with 100%nat. change (Nat.min (650 + 1) 600) with 600%nat.
  change (Nat.min 200 (600 - 100)) with 200%nat. change (Nat.min 200 (600 - 600)) with 0%nat.
  change (nth 0 global 0) with 0. change (nth 7 global 0) with 0.
  rewrite !INR_IZR_INZ. change (Z.of_nat 100) with 100%Z. change (Z.of_nat (100 + 200)) with 300%Z.
  change (Z.of_nat 600) with 600%Z. change (Z.of_nat (600 + 0)) with 600%Z. change (Z.of_nat 0) with 0%Z.
  split; lra.
Qed.
