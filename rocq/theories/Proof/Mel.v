(** The mel filters over the reals, and the features as formulas. *)
From Coq Require Import ZArith Reals List Bool Lia Lra.
From Verif.Base Require Import Prelude Lemmas.
From Verif.Model Require Import Arith Vector Fbank Srfft FbankInit Exact.
From Verif.Spec Require Import AudioSpec FbankSpec FftSpec MelSpec.
From Verif.Proof Require Fft.
From Verif.Proof Require Import Loop Cmvn Fbank FbankStream FbankTotal FbankFrame FftCases FbankInit.
Import ListNotations.
Open Scope R_scope.

(** * Comparing points on the mel scale by whole numbers *)

Definition edge_num (j : nat) : Z := (36 ^ Z.of_nat (41 - j) * 87 ^ Z.of_nat j * 112 ^ 41)%Z.
Definition bin_num (j i : nat) : Z := ((112 + 5 * Z.of_nat i) ^ 41 * 35 ^ Z.of_nat (41 - j) * 7 ^ Z.of_nat j)%Z.

Definition ea : R := 36 / 35.
Definition eb : R := 87 / 7.
Definition ec (i : nat) : R := (112 + 5 * INR i) / 112.

Lemma edge_ln : forall j, (j <= 41)%nat -> 41 * edge j = 1127 * ln (ea ^ (41 - j) * eb ^ j).
Proof.
  intros j H. unfold edge, mel.
  replace (1 + 20 / 700) with ea by (unfold ea; lra). replace (1 + 8000 / 700) with eb by (unfold eb; lra).
  assert (0 < ea) by (unfold ea; lra). assert (0 < eb) by (unfold eb; lra).
  rewrite ln_mult by (apply pow_lt; assumption). rewrite !ln_pow by assumption.
  rewrite minus_INR by exact H. replace (INR 41) with 41 by (cbn; lra). field.
Qed.

Lemma bin_ln : forall i, 41 * mel (16000 * INR i / 512) = 1127 * ln (ec i ^ 41).
Proof.
  intros i. unfold mel. pose proof (pos_INR i) as P. assert (0 < ec i) by (unfold ec; lra).
  replace (1 + 16000 * INR i / 512 / 700) with (ec i) by (unfold ec; lra).
  rewrite ln_pow by assumption. replace (INR 41) with 41 by (cbn; lra). field.
Qed.

Lemma scaled : forall j i, let c := IZR (35 ^ Z.of_nat (41 - j) * 7 ^ Z.of_nat j * 112 ^ 41) in
  0 < c /\ IZR (edge_num j) = ea ^ (41 - j) * eb ^ j * c /\ IZR (bin_num j i) = ec i ^ 41 * c.
Proof.
  intros j i c. unfold c, edge_num, bin_num. replace 41%Z with (Z.of_nat 41) by reflexivity.
  rewrite !mult_IZR, <- !pow_IZR. rewrite plus_IZR, mult_IZR, <- INR_IZR_INZ.
  unfold ea, eb, ec, Rdiv. rewrite !Rpow_mult_distr, !pow_inv.
  assert (0 < 35 ^ (41 - j)) by (apply pow_lt; lra). assert (0 < 7 ^ j) by (apply pow_lt; lra).
  assert (0 < 112 ^ 41) by (apply pow_lt; lra). set (k := 41%nat) in *. clearbody k.
  split; [repeat apply Rmult_lt_0_compat; assumption|]. split; field; lra.
Qed.

Lemma edge_below : forall j i, (j <= 41)%nat -> (edge_num j < bin_num j i)%Z -> edge j < mel (16000 * INR i / 512).
Proof.
  intros j i Hj H. apply IZR_lt in H. destruct (scaled j i) as [P [E1 E2]]. rewrite E1, E2 in H.
  apply (Rmult_lt_reg_r _ _ _ P) in H.
  assert (0 < ea ^ (41 - j) * eb ^ j) by (apply Rmult_lt_0_compat; apply pow_lt; unfold ea, eb; lra).
  apply ln_increasing in H; [|assumption]. pose proof (edge_ln j Hj). pose proof (bin_ln i). lra.
Qed.

Lemma edge_above : forall j i, (j <= 41)%nat -> (bin_num j i < edge_num j)%Z -> mel (16000 * INR i / 512) < edge j.
Proof.
  intros j i Hj H. apply IZR_lt in H. destruct (scaled j i) as [P [E1 E2]]. rewrite E1, E2 in H.
  apply (Rmult_lt_reg_r _ _ _ P) in H. pose proof (pos_INR i) as Q.
  assert (0 < ec i ^ 41) by (apply pow_lt; unfold ec; lra).
  apply ln_increasing in H; [|assumption]. pose proof (edge_ln j Hj). pose proof (bin_ln i). lra.
Qed.

(** The first term of the transform in each filter. *)
Definition first_bins : list nat :=
  [1; 3; 4; 6; 7; 9; 11; 13; 16; 18; 20; 23; 26; 29; 32; 35; 39; 43; 47; 51; 56; 61; 66; 71; 77; 83; 90; 97; 104;
   112; 121; 130; 139; 149; 160; 171; 184; 196; 210; 225]%nat.
Definition between (j i : nat) : bool := (edge_num j <? bin_num j i)%Z && (bin_num (j + 2) i <? edge_num (j + 2))%Z.
Lemma first_bins_ok : forallb (fun j => let i := nth j first_bins 0%nat in between j i && between j (i + 1) && (i <? 255)%nat)
  (seq 0 40) = true.
Proof. vm_compute. reflexivity. Qed.

Lemma between_ok : forall j i, (j + 2 <= 41)%nat -> between j i = true ->
  edge j < mel (16000 * INR i / 512) < edge (j + 2).
Proof.
  intros j i Hj H. unfold between in H. apply andb_true_iff in H. destruct H as [H1 H2].
  apply Z.ltb_lt in H1, H2. split; [apply edge_below|apply edge_above]; (lia || assumption).
Qed.

(** * The filters *)

Lemma edge_step : forall j, edge j < edge (j + 1).
Proof.
  intros j. pose proof (edge_ln 0 ltac:(lia)) as E0. pose proof (edge_ln 41 ltac:(lia)) as E1. unfold edge in *.
  rewrite plus_INR. cbn [INR] in *. enough (mel 20 < mel 8000) by lra.
  unfold mel. enough (ln (1 + 20 / 700) < ln (1 + 8000 / 700)) by lra. apply ln_increasing; lra.
Qed.

Lemma mel_scale_real : forall f, mel_scale rops rinit f = mel f.
Proof. intros f. reflexivity. Qed.

Lemma bank_edge_real : forall j, (0 <= j)%Z -> bank_edge rops rinit j = edge (Z.to_nat j).
Proof.
  intros j H. unfold bank_edge, edge. rewrite !mel_scale_real. cbn [f_int f_add f_mul f_div f_sub rops].
  rewrite INR_IZR_INZ, Z2Nat.id by exact H. reflexivity.
Qed.

Lemma bin_at_real : forall i, (0 <= i)%Z ->
  mel_scale rops rinit (f_mul rops (bank_width rops) (f_int rops i)) = mel (16000 * INR (Z.to_nat i) / 512).
Proof.
  intros i H. rewrite mel_scale_real. f_equal. unfold bank_width. cbn [f_int f_mul f_div rops].
  rewrite INR_IZR_INZ, Z2Nat.id by exact H. lra.
Qed.

Lemma inside_real : forall i l r, (0 <= i)%Z -> inside rops rinit (bank_width rops) l r i = true <->
  l < mel (16000 * INR (Z.to_nat i) / 512) < r.
Proof.
  intros i l r H. unfold inside. rewrite bin_at_real by exact H. cbn [f_lt rops]. rewrite andb_true_iff.
  unfold real_lt. destruct (Rlt_dec l _), (Rlt_dec _ r); intuition (discriminate || lra).
Qed.

Lemma all_two_inside : forall j, (0 <= j < 40)%Z -> two_inside rops rinit j.
Proof.
  intros j H. pose proof first_bins_ok as Q. rewrite forallb_forall in Q.
  specialize (Q (Z.to_nat j) ltac:(apply in_seq; lia)). cbv zeta in Q. set (i := nth (Z.to_nat j) first_bins 0%nat) in *.
  apply andb_true_iff in Q. destruct Q as [Q Q3]. apply andb_true_iff in Q. destruct Q as [Q1 Q2].
  apply Nat.ltb_lt in Q3. exists (Z.of_nat i), (Z.of_nat (i + 1)). split; [lia|]. split; [lia|].
  rewrite !inside_real, !Nat2Z.id, !bank_edge_real by lia. replace (Z.to_nat (j + 2)) with (Z.to_nat j + 2)%nat by lia.
  split; apply between_ok; (lia || assumption).
Qed.

Lemma triangle_in : forall l c r x, l < c < r -> l < x < r ->
  triangle l c r x = if real_le x c then (x - l) / (c - l) else (r - x) / (r - c).
Proof.
  intros l c r x H K. unfold triangle, real_le.
  assert (P1 : 0 < (x - l) / (c - l)) by (apply Rdiv_lt_0_compat; lra).
  assert (P2 : 0 < (r - x) / (r - c)) by (apply Rdiv_lt_0_compat; lra).
  assert (E1 : (x - l) / (c - l) = 1 + (x - c) * / (c - l)) by (field; lra).
  assert (E2 : (r - x) / (r - c) = 1 - (x - c) * / (r - c)) by (field; lra).
  assert (I1 : 0 < / (c - l)) by (apply Rinv_0_lt_compat; lra).
  assert (I2 : 0 < / (r - c)) by (apply Rinv_0_lt_compat; lra).
  destruct (Rle_dec x c).
  - rewrite Rmin_left; [apply Rmax_right; lra|]. rewrite E1, E2.
    pose proof (Rmult_le_pos (c - x) _ ltac:(lra) (Rlt_le _ _ I1)). pose proof (Rmult_le_pos (c - x) _ ltac:(lra) (Rlt_le _ _ I2)). lra.
  - rewrite Rmin_right; [apply Rmax_right; lra|]. rewrite E1, E2.
    pose proof (Rmult_le_pos (x - c) _ ltac:(lra) (Rlt_le _ _ I1)). pose proof (Rmult_le_pos (x - c) _ ltac:(lra) (Rlt_le _ _ I2)). lra.
Qed.

Lemma triangle_out : forall l c r x, l < c < r -> ~ (l < x < r) -> triangle l c r x = 0.
Proof.
  intros l c r x H K. unfold triangle. apply Rmax_left.
  assert (I1 : 0 < / (c - l)) by (apply Rinv_0_lt_compat; lra).
  assert (I2 : 0 < / (r - c)) by (apply Rinv_0_lt_compat; lra).
  destruct (Rlt_dec l x).
  - eapply Rle_trans; [apply Rmin_r|]. unfold Rdiv. pose proof (Rmult_le_pos (x - r) _ ltac:(lra) (Rlt_le _ _ I2)). lra.
  - eapply Rle_trans; [apply Rmin_l|]. unfold Rdiv. pose proof (Rmult_le_pos (l - x) _ ltac:(lra) (Rlt_le _ _ I1)). lra.
Qed.

Lemma bin_value_real : forall j i, (0 <= j)%Z -> (0 <= i)%Z ->
  bin_value rops rinit (bank_width rops) (bank_edge rops rinit j) (bank_edge rops rinit (j + 1)) (bank_edge rops rinit (j + 2)) i =
  mel_weight (Z.to_nat j) (Z.to_nat i).
Proof.
  intros j i Hj Hi. unfold bin_value, mel_weight.
  pose proof (edge_step (Z.to_nat j)) as S1. pose proof (edge_step (Z.to_nat j + 1)) as S2.
  replace (Z.to_nat j + 1 + 1)%nat with (Z.to_nat j + 2)%nat in S2 by lia.
  pose proof (inside_real i (bank_edge rops rinit j) (bank_edge rops rinit (j + 2)) Hi) as Q.
  rewrite !bank_edge_real in * by lia.
  replace (Z.to_nat (j + 1)) with (Z.to_nat j + 1)%nat in * by lia.
  replace (Z.to_nat (j + 2)) with (Z.to_nat j + 2)%nat in * by lia.
  destruct (inside _ _ _ _ _ _).
  - rewrite triangle_in; [|lra|apply Q; reflexivity]. unfold bin_weight. rewrite bin_at_real by exact Hi. reflexivity.
  - rewrite triangle_out; [reflexivity|lra|]. intros K. apply Q in K. discriminate.
Qed.

(** * Frames *)

Lemma fold_sum : forall (l : list R) s, fold_left Rplus l s = s + sum_of l.
Proof. induction l as [|x l IH]; intros s; cbn [fold_left sum_of fold_right]; [lra|]. rewrite IH. unfold sum_of. lra. Qed.

Lemma list_eq_nth : forall A (a b : list A) d, length a = length b ->
  (forall i, (i < length a)%nat -> nth i a d = nth i b d) -> a = b.
Proof. intros A a b d L H. apply (nth_ext a b d d L H). Qed.

Lemma window_real : forall w, length w = 400%nat ->
  process_window rops (hamming rops rinit) w = Ok (map (weighted w) (seq 0 400)).
Proof.
  intros w L. destruct (process_window_ok rops (hamming rops rinit) w 0) as [out [E [Lo H]]].
  { intros ->. discriminate. } { rewrite hamming_length. lia. }
  rewrite E. f_equal. apply (list_eq_nth _ _ _ 0); [rewrite map_length, seq_length; lia|].
  intros i Hi. cbv zeta in H. rewrite H by lia.
  assert (Hi' : (i < 400)%nat) by lia.
  rewrite (nth_indep (map (weighted w) (seq 0 400)) 0 (weighted w 0)) by (rewrite map_length, seq_length; exact Hi').
  rewrite (map_nth (weighted w)), seq_nth by exact Hi'. cbn [Nat.add].
  change (nth i (hamming rops rinit) 0) with (nth i (hamming rops rinit) (f_zero rops)).
  rewrite (hamming_nth rops rinit i Hi'). unfold weighted, centred.
  cbn [f_mul f_preemph f_sub f_div f_add f_zero f_int rops i_hamming i_step rinit].
  rewrite fold_sum, Rplus_0_l. unfold lenZ. rewrite <- !INR_IZR_INZ, L.
  replace (INR (400 - 1)) with 399 by (rewrite INR_IZR_INZ; reflexivity).
  do 3 f_equal. f_equal. field.
Qed.

Lemma packed_nth : forall x, length x = 512%nat ->
  nth 0 (packed_dft x) 0 = dft_re x 0 /\ forall k, (1 <= k < 256)%nat ->
    nth (2 * k) (packed_dft x) 0 = dft_re x k /\ nth (2 * k + 1) (packed_dft x) 0 = dft_im x k.
Proof.
  intros x L. unfold packed_dft. split; [reflexivity|]. rewrite L. change (512 / 2)%nat with 256%nat.
  change (256 - 1)%nat with 255%nat. generalize (dft_re x 256). intros z.
  assert (P : forall n a k, (k < n)%nat ->
    nth (2 * k) (flat_map (fun k => [dft_re x k; dft_im x k]) (seq a n)) 0 = dft_re x (a + k) /\
    nth (2 * k + 1) (flat_map (fun k => [dft_re x k; dft_im x k]) (seq a n)) 0 = dft_im x (a + k)).
  { induction n as [|n IH]; intros a k Hk; [lia|]. cbn [seq flat_map app]. destruct k as [|k].
    - rewrite Nat.add_0_r. split; reflexivity.
    - replace (2 * S k)%nat with (S (S (2 * k))) by lia. replace (S (S (2 * k)) + 1)%nat with (S (S (2 * k + 1))) by lia.
      cbn [nth]. replace (a + S k)%nat with (S a + k)%nat by lia. apply IH. lia. }
  intros k Hk. destruct (P 255%nat 1%nat (k - 1)%nat ltac:(lia)) as [P1 P2]. replace (1 + (k - 1))%nat with k in * by lia.
  replace (2 * k)%nat with (S (S (2 * (k - 1)))) by lia.
  replace (S (S (2 * (k - 1))) + 1)%nat with (S (S (2 * (k - 1) + 1))) by lia.
  split; [exact P1|exact P2].
Qed.

Lemma dft_im_0 : forall x, dft_im x 0 = 0.
Proof.
  intros x. unfold dft_im. transitivity (sum_of (map (fun _ : nat => 0) (seq 0 (length x)))).
  - apply Fft.sum_of_ext. intros n _. unfold phase. replace (2 * PI * INR 0 * INR n / INR (length x)) with 0 by (cbn [INR]; unfold Rdiv; ring).
    rewrite sin_0. ring.
  - generalize (seq 0 (length x)). unfold sum_of. induction l; cbn [map fold_right]; [reflexivity|]. rewrite IHl. ring.
Qed.

Lemma power_real : forall x, length x = 512%nat ->
  exists s, power_spectrum rops (packed_dft x) = Ok s /\ length s = 512%nat /\
    forall k, (k < 256)%nat -> nth k s 0 = power x k.
Proof.
  intros x L. assert (LP : length (packed_dft x) = 512%nat).
  { rewrite (Fft.packed_length 8 x); [exact L|]. rewrite L. reflexivity. }
  destruct (power_spectrum_ok rops (packed_dft x) 0 256) as [s [E [Ls [H0 [_ H]]]]]; [lia|rewrite LP; reflexivity|].
  exists s. split; [exact E|]. split; [lia|]. destruct (packed_nth x L) as [P0 P]. intros k Hk. unfold power.
  destruct k as [|k].
  - rewrite H0, P0, dft_im_0. cbn [f_mul rops]. ring.
  - rewrite H by lia. destruct (P (S k) ltac:(lia)) as [-> ->]. reflexivity.
Qed.

Lemma sum_of_zero : forall (f : nat -> R) l, (forall n, In n l -> f n = 0) -> sum_of (map f l) = 0.
Proof.
  intros f l H. induction l as [|a l IH]; cbn [map sum_of fold_right]; [reflexivity|].
  rewrite H by now left. unfold sum_of in IH. rewrite IH by (intros; apply H; now right). ring.
Qed.

Lemma dot_real : forall a b : list R, (length a <= length b)%nat ->
  dot_product rops a b = sum_of (map (fun i => nth i a 0 * nth i b 0) (seq 0 (length a))).
Proof.
  intros a b. unfold dot_product. cbn [f_zero f_add f_mul rops].
  enough (P : forall a b s, (length a <= length b)%nat ->
    fold_left (fun t p => t + fst p * snd p) (combine a b) s = s + sum_of (map (fun i => nth i a 0 * nth i b 0) (seq 0 (length a)))).
  { intros L. rewrite P by exact L. ring. }
  clear. induction a as [|x a IH]; intros b s L; [cbn; ring|]. destruct b as [|y b]; [cbn in L; lia|].
  cbn [combine fold_left length seq map sum_of fold_right nth fst snd].
  rewrite IH by (cbn in L; lia). rewrite <- seq_shift, map_map. unfold sum_of. cbn [nth]. ring.
Qed.

Lemma filter_energy : forall j b s g, (0 <= j < 40)%Z -> filter_at rops rinit j b -> length s = 512%nat ->
  (forall k, (k < 256)%nat -> nth k s 0 = g k) ->
  dot_product rops (snd b) (skipn (Z.to_nat (fst b)) s) =
  sum_of (map (fun k => mel_weight (Z.to_nat j) k * g k) (seq 0 256)).
Proof.
  intros j [o c] s g Hj [H1 [H2 [H3 [H4 H5]]]] Ls G. cbn [fst snd] in *. unfold lenZ in *.
  rewrite dot_real by (rewrite skipn_length; lia).
  replace 256%nat with (Z.to_nat o + (length c + (256 - (Z.to_nat o + length c))))%nat by lia.
  rewrite !seq_app, !map_app, !Fft.sum_of_app. cbn [Nat.add].
  rewrite (sum_of_zero _ (seq 0 (Z.to_nat o))).
  2:{ intros n I. apply in_seq in I. pose proof (H5 (Z.of_nat n) ltac:(lia) ltac:(lia)) as Q.
      pose proof (bin_value_real j (Z.of_nat n) ltac:(lia) ltac:(lia)) as V. unfold bin_value in V. rewrite Q, Nat2Z.id in V.
      rewrite <- V. cbn [f_zero rops]. ring. }
  rewrite (sum_of_zero _ (seq (Z.to_nat o + length c) _)).
  2:{ intros n I. apply in_seq in I. pose proof (H5 (Z.of_nat n) ltac:(lia) ltac:(lia)) as Q.
      pose proof (bin_value_real j (Z.of_nat n) ltac:(lia) ltac:(lia)) as V. unfold bin_value in V. rewrite Q, Nat2Z.id in V.
      rewrite <- V. cbn [f_zero rops]. ring. }
  rewrite Rplus_0_l, Rplus_0_r.
  replace (seq (Z.to_nat o) (length c)) with (map (fun i => (Z.to_nat o + i)%nat) (seq 0 (length c))).
  2:{ clear. generalize (length c). intros n. apply (list_eq_nth _ _ _ (Z.to_nat o + 0)%nat).
      - rewrite map_length, !seq_length. reflexivity.
      - rewrite map_length, seq_length. intros i Hi. rewrite (map_nth (fun i => (Z.to_nat o + i)%nat)), !seq_nth by exact Hi. lia. }
  rewrite map_map. apply Fft.sum_of_ext. intros i I. apply in_seq in I.
  rewrite nth_skipn', G by lia. f_equal.
  pose proof (H4 (o + Z.of_nat i)%Z ltac:(lia)) as Q. rewrite bin_value_real in Q by lia.
  replace (Z.to_nat (o + Z.of_nat i - o)) with i in Q by lia.
  replace (Z.to_nat (o + Z.of_nat i)) with (Z.to_nat o + i)%nat in Q by lia. exact Q.
Qed.

Lemma floor_real : forall e, (if f_lt rops e (f_eps rops) then f_eps rops else e) = Rmax (/ 2 ^ 23) e.
Proof.
  intros e. cbn [f_lt f_eps rops]. replace (IZR (2 ^ 23)) with (2 ^ 23).
  2:{ rewrite pow_IZR. reflexivity. }
  unfold real_lt. destruct (Rlt_dec e (/ 2 ^ 23)); [rewrite Rmax_left|rewrite Rmax_right]; lra.
Qed.

Lemma nonneg_real : forall x, f_nonneg rops (if f_lt rops x (f_eps rops) then f_eps rops else x) = true.
Proof.
  intros x. rewrite floor_real. cbn [f_nonneg rops]. apply le_true.
  eapply Rle_trans; [|apply Rmax_l]. apply Rlt_le, Rinv_0_lt_compat, pow_lt. lra.
Qed.

Lemma log_mel_features : forall junk junk_int,
  exists fb, fbank_new rops rtrig rinit junk junk_int = Ok fb /\
  forall ps, Forall (fun p => p <> [] /\ (lenZ p < 536870000)%Z) ps ->
  exists outs b, fbank_run rops fb [] ps = Ok (outs, b) /\
    concat outs = map (fun w => map (log_mel w) (seq 0 40)) (windows 400 160 (concat ps)).
Proof.
  intros junk junk_int.
  destruct (fbank_new_ok rops rtrig rinit junk junk_int) as [[_ N]|[fb [f [E [Ef [TF [LB [HW [HB HF]]]]]]]]].
  { destruct (N all_two_inside). }
  exists fb. split; [exact E|]. intros ps HP.
  assert (R : forall w r b, length w = 400%nat -> fbank_process rops fb [] w = Ok ([r], b) -> r = map (log_mel w) (seq 0 40)).
  { intros w r b L EP. destruct (frame_formula rops fb w r b L EP) as [x [y [s [E1 [E2 [E3 E4]]]]]].
    rewrite HW, (window_real w L) in E1.
    assert (EX : x = map (weighted w) (seq 0 400)) by congruence. clear E1. subst x.
    destruct TF as [TP _]. rewrite TP in E2. change (Z.to_nat (512 - 400)) with 112%nat in E2.
    change (f_zero rops) with 0 in E2.
    assert (EF : map (weighted w) (seq 0 400) ++ repeat 0 112 = padded_frame w).
    { unfold padded_frame. rewrite L. reflexivity. }
    rewrite EF, HF in E2.
    assert (LP : length (padded_frame w) = 512%nat).
    { rewrite <- EF, app_length, map_length, seq_length, repeat_length. reflexivity. }
    destruct (fft_forward junk junk_int 9 ltac:(lia)) as [f' [Ef' HC]].
    change (2 ^ Z.of_nat 9)%Z with 512%Z in Ef'. assert (f' = f) as -> by congruence.
    assert (LM : length (malloc junk 512) = 512%nat) by (unfold malloc; rewrite map_length, seq_length; reflexivity).
    destruct (HC (padded_frame w) (malloc junk 512)) as [b' EC]; [rewrite LP; reflexivity|lia|].
    assert (LM' : lenZ (malloc junk 512) = 512%Z) by (unfold lenZ; rewrite LM; reflexivity).
    rewrite LM' in EC. rewrite EC in E2. cbn [bind] in E2.
    assert (EY : y = packed_dft (padded_frame w)) by congruence. clear E2. subst y.
    destruct (power_real (padded_frame w) LP) as [s' [E3' [Ls G]]].
    assert (s' = s) as -> by congruence.
    rewrite E4. apply (list_eq_nth _ _ _ 0).
    { rewrite !map_length, seq_length. exact LB. }
    rewrite map_length, LB. intros j Hj.
    match goal with |- context [map ?g (fb_bins fb)] => set (h := g) end.
    rewrite (nth_indep (map h (fb_bins fb)) 0 (h (0%Z, []))) by (rewrite map_length, LB; exact Hj).
    rewrite (nth_indep (map (log_mel w) (seq 0 40)) 0 (log_mel w 0)) by (rewrite map_length, seq_length; exact Hj).
    rewrite (map_nth h), (map_nth (log_mel w)), seq_nth by exact Hj. cbn [Nat.add].
    specialize (HB (Z.of_nat j) ltac:(lia)). rewrite Nat2Z.id in HB. unfold h. cbv zeta.
    rewrite floor_real. cbn [f_log rops]. unfold log_mel, mel_energy. do 2 f_equal.
    rewrite (filter_energy (Z.of_nat j) _ s (power (padded_frame w)) ltac:(lia) HB Ls G), Nat2Z.id. reflexivity. }
  destruct (stream_features rops fb ps HP) as [outs [b [ER Fr]]].
  { intros w I. pose proof (windows_length _ _ _ I) as L. destruct (frame_total rops fb w TF nonneg_real L) as [r [Er _]].
    apply single_frame in Er; [|exact L]. destruct Er as [b Eb]. eauto. }
  exists outs, b. split; [exact ER|].
  assert (A : forall w, In w (windows 400 160 (concat ps)) -> length w = 400%nat) by (intros; eapply windows_length; eauto).
  clear ER. revert A Fr. generalize (windows 400 160 (concat ps)). generalize (concat outs).
  intros rs ws A Fr. induction Fr as [|w r ws rs [b0 Hr] Fr IH]; [reflexivity|]. cbn [map].
  rewrite (R w r b0 (A w (or_introl eq_refl)) Hr), IH; [reflexivity|]. intros; apply A; now right.
Qed.

(** * Cases *)

Lemma triangle_pos : forall l c r x, l < c < r -> l < x < r -> 0 < triangle l c r x <= 1.
Proof.
  intros l c r x H K. rewrite triangle_in by assumption. unfold real_le. destruct (Rle_dec x c).
  - split; [apply Rdiv_lt_0_compat; lra|]. apply (Rmult_le_reg_r (c - l)); [lra|]. unfold Rdiv.
    rewrite Rmult_assoc, Rinv_l by lra. lra.
  - split; [apply Rdiv_lt_0_compat; lra|]. apply (Rmult_le_reg_r (r - c)); [lra|]. unfold Rdiv.
    rewrite Rmult_assoc, Rinv_l by lra. lra.
Qed.

Lemma weights_pos : forall j, (j < 40)%nat -> exists k, (k + 1 < 256)%nat /\
  0 < mel_weight j k <= 1 /\ 0 < mel_weight j (k + 1) <= 1.
Proof.
  intros j H. pose proof first_bins_ok as Q. rewrite forallb_forall in Q.
  specialize (Q j ltac:(apply in_seq; lia)). cbv zeta in Q. set (i := nth j first_bins 0%nat) in *.
  apply andb_true_iff in Q. destruct Q as [Q Q3]. apply andb_true_iff in Q. destruct Q as [Q1 Q2].
  apply Nat.ltb_lt in Q3. exists i. split; [lia|].
  pose proof (edge_step j) as S1. pose proof (edge_step (j + 1)) as S2. replace (j + 1 + 1)%nat with (j + 2)%nat in S2 by lia.
  split; (apply triangle_pos; [lra|apply between_ok; [lia|assumption]]).
Qed.

(** Silence, with any offset, gives the floor. *)
Lemma silent : forall c j, log_mel (repeat c 400) j = ln (/ 2 ^ 23).
Proof.
  intros c j. unfold log_mel. f_equal. apply Rmax_left.
  assert (S : forall n, sum_of (repeat c n) = INR n * c).
  { induction n as [|n IH]; [cbn; ring|]. cbn [repeat sum_of fold_right]. unfold sum_of in IH. rewrite IH, S_INR. ring. }
  assert (C0 : forall i, (i < 400)%nat -> centred (repeat c 400) i = 0).
  { intros i Hi. unfold centred. rewrite repeat_length, S.
    replace (nth i (repeat c 400) 0) with c.
    - rewrite (INR_IZR_INZ 400). change (Z.of_nat 400) with 400%Z. field.
    - symmetry. rewrite (nth_indep _ 0 c) by (rewrite repeat_length; exact Hi). apply nth_repeat. }
  assert (W0 : forall i, nth i (padded_frame (repeat c 400)) 0 = 0).
  { intros i. unfold padded_frame. rewrite repeat_length. destruct (Nat.lt_ge_cases i 400) as [Hi|Hi].
    - rewrite app_nth1 by (rewrite map_length, seq_length; exact Hi).
      rewrite (nth_indep _ 0 (weighted (repeat c 400) 0)) by (rewrite map_length, seq_length; exact Hi).
      rewrite (map_nth (weighted (repeat c 400))), seq_nth by exact Hi. cbn [Nat.add]. unfold weighted.
      rewrite (C0 i Hi), (C0 (i - 1)%nat ltac:(lia)). ring.
    - rewrite app_nth2 by (rewrite map_length, seq_length; exact Hi). apply nth_repeat. }
  assert (P0 : forall k, power (padded_frame (repeat c 400)) k = 0).
  { intros k. unfold power, dft_re, dft_im. rewrite !sum_of_zero; [ring| |]; intros n _; rewrite W0; ring. }
  unfold mel_energy. rewrite sum_of_zero.
  - apply Rlt_le, Rinv_0_lt_compat, pow_lt. lra.
  - intros k _. rewrite P0. ring.
Qed.

Lemma silent_run : forall junk junk_int, exists fb, fbank_new rops rtrig rinit junk junk_int = Ok fb /\
  exists outs b, fbank_run rops fb [] [repeat 7 100; repeat 7 470] = Ok (outs, b) /\
    concat outs = repeat (repeat (ln (/ 2 ^ 23)) 40) 2.
Proof.
  intros junk junk_int. destruct (log_mel_features junk junk_int) as [fb [E H]]. exists fb. split; [exact E|].
  destruct (H [repeat 7 100; repeat 7 470]) as [outs [b [E2 C]]].
  - constructor; [split; [discriminate|reflexivity]|]. constructor; [split; [discriminate|reflexivity]|constructor].
  - exists outs, b. split; [exact E2|]. rewrite C. cbn [concat]. rewrite app_nil_r, <- repeat_app.
    unfold windows. rewrite repeat_length. change (num_windows 400 160 (100 + 470)) with 2%nat.
    assert (W : forall i, (i < 2)%nat -> window 400 160 (repeat 7 (100 + 470)) i = repeat 7 400).
    { intros i Hi. unfold window. destruct i as [|[|i]]; [reflexivity|reflexivity|lia]. }
    assert (M : map (log_mel (repeat 7 400)) (seq 0 40) = repeat (ln (/ 2 ^ 23)) 40).
    { rewrite (map_ext _ (fun _ => ln (/ 2 ^ 23))) by (intros; apply silent). reflexivity. }
    rewrite map_map. change (seq 0 2) with [0; 1]%nat. rewrite <- M. generalize (seq 0 40). intros l.
    cbn [map]. rewrite !W by lia. reflexivity.
Qed.
