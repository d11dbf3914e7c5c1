(** The energies of audio are finite in single precision, so that a constructed
    feature extractor gives features for all audio. *)
From Coq Require Import ZArith Bool List Lia Floats.SpecFloat.
From Verif.Base Require Import Prelude Lemmas.
From Verif.Model Require Import Arith Vector Fbank Srfft FbankInit Ieee IeeeFbank.
From Verif.Spec Require Import AudioSpec FbankSpec LibmSpec.
From Verif.Proof Require Import Loop Rne Ieee IeeeLaws IeeeBound Relate Fbank FbankStream FbankTotal FbankInit.
Import ListNotations.
Open Scope Z_scope.

(** * The bounds, computed *)

Definition peak : Z := 2 ^ 157.
Definition chain (a : res (list Z)) (b : res (srfft Z)) (c : srfft Z -> list Z -> res (list Z * list Z)) (d : list Z -> res (list Z)) : bool :=
  match (w <- a ;; f <- b ;; '(w, _) <- c f w ;; d w) with Ok l => forallb (fun b => b <=? peak) l | Fault _ => false end.

Lemma bound_run_ok : forall junk_int, chain
  (process_window bounds (repeat (2 * one) 400) (repeat (2 ^ 31 * one) 400))
  (srfft_new bounds bounds_trig (fun _ => lim + 1) junk_int 512)
  (fun f w => compute bounds bounds_trig f (w ++ repeat 0 112) 512 true (malloc (fun _ => lim + 1) 512) 512)
  (power_spectrum bounds) = true.
Proof. intros junk_int. vm_compute. reflexivity. Qed.

Lemma chain_split : forall a b c d, chain a b c d = true ->
  exists x f y u z, a = Ok x /\ b = Ok f /\ c f x = Ok (y, u) /\ d y = Ok z /\ forallb (fun b => b <=? peak) z = true.
Proof.
  unfold chain. intros [x|e1] [f|e2] c d; cbn [bind]; intros H; try discriminate H.
  destruct (c f x) as [[y u]|] eqn:E; cbn [bind] in H; [|discriminate H].
  destruct (d y) as [z|] eqn:E2; [|discriminate H]. exists x, f, y, u, z. auto.
Qed.

Section Bound.
Variables S top : Z.
Hypothesis HS : 2200 <= S.
Hypothesis Htop : 2 ^ (1024 + S) <= top.
Variable L : library.
Variable M : trig_library.
Hypothesis HM : libm M.

Notation K x := (key S top (fl_val x)).
Notation n32 := (near_signed 24 128 S top).
Notation n64 := (near_signed 53 1024 S top).
Notation O := (ieee L).
Notation T := (ieee_trig M).
Notation I := (ieee_init M).
Notation bd := (bounded S top).
Notation within := (IeeeBound.within S top).
Let P32 : 1 < 24. Proof. lia. Qed.
Let E32 : 24 < 128. Proof. lia. Qed.
Let P64 : 1 < 53. Proof. lia. Qed.
Let E64 : 53 < 1024. Proof. lia. Qed.
Let S32 : - S <= emin 24 128. Proof. unfold emin. lia. Qed.
Let S64 : - S <= emin 53 1024. Proof. unfold emin. lia. Qed.
Let T32 : 2 ^ (128 + S) <= top. Proof. pose proof (big S top HS). lia. Qed.

(** * Limits *)

Lemma pow32 : forall e, -100 <= e <= 126 -> n32 (2 ^ (e + S)) = 2 ^ (e + S).
Proof.
  intros e He. pose proof (pow_pos (e + S) ltac:(lia)). unfold near_signed. destruct (Z.ltb_spec (2 ^ (e + S)) 0); [lia|].
  rewrite <- (Z.mul_1_l (2 ^ (e + S))). apply near_multiple; auto; [split; [lia|reflexivity]|unfold emin; lia|].
  rewrite Z.mul_1_l. apply Z.pow_lt_mono_r; lia.
Qed.
Lemma pow64 : forall e, -100 <= e <= 126 -> n64 (2 ^ (e + S)) = 2 ^ (e + S).
Proof.
  intros e He. pose proof (pow_pos (e + S) ltac:(lia)). unfold near_signed. destruct (Z.ltb_spec (2 ^ (e + S)) 0); [lia|].
  rewrite <- (Z.mul_1_l (2 ^ (e + S))). apply near_multiple; auto; [split; [lia|reflexivity]|unfold emin; lia|].
  rewrite Z.mul_1_l. apply Z.pow_lt_mono_r; lia.
Qed.

Lemma in32_key : forall e x, -100 <= e <= 126 -> in32 (1, e) x -> exists a, K x = Some a /\ Z.abs a <= 2 ^ (e + S).
Proof.
  intros e x He (H1 & H2). cbn [Datatypes.fst snd] in *. unfold num32 in *.
  destruct (normalize_val 24 128 P32 E32 S top S32 1 e false ltac:(lia)) as (V1 & K1).
  destruct (normalize_val 24 128 P32 E32 S top S32 (- (1)) e false ltac:(lia)) as (V2 & K2).
  rewrite (le_val 24 128 P32 E32 S top S32 T32) in H1, H2 by (assumption || apply fl_valid).
  rewrite K2 in H1. rewrite K1 in H2. rewrite Z.mul_opp_l, Z.mul_1_l, near_signed_opp, pow32 in H1 by assumption.
  rewrite Z.mul_1_l, pow32 in H2 by assumption.
  destruct (K x) as [a|]; [|discriminate]. exists a. split; [reflexivity|]. apply Z.leb_le in H1, H2. lia.
Qed.

Lemma in64_key : forall e x, -100 <= e <= 126 -> in64 (1, e) x -> exists a, K x = Some a /\ Z.abs a <= 2 ^ (e + S).
Proof.
  intros e x He (H1 & H2). cbn [Datatypes.fst snd] in *. unfold num64 in *.
  destruct (normalize_val 53 1024 P64 E64 S top S64 1 e false ltac:(lia)) as (V1 & K1).
  destruct (normalize_val 53 1024 P64 E64 S top S64 (- (1)) e false ltac:(lia)) as (V2 & K2).
  rewrite (le_val 53 1024 P64 E64 S top S64 Htop) in H1, H2 by (assumption || apply fl_valid).
  rewrite K2 in H1. rewrite K1 in H2. rewrite Z.mul_opp_l, Z.mul_1_l, near_signed_opp, pow64 in H1 by assumption.
  rewrite Z.mul_1_l, pow64 in H2 by assumption.
  destruct (K x) as [a|]; [|discriminate]. exists a. split; [reflexivity|]. apply Z.leb_le in H1, H2. lia.
Qed.

Lemma in32_bounded : forall e x, -40 <= e <= 126 -> in32 (1, e) x -> bd x (2 ^ (e + 40)).
Proof.
  intros e x He H. pose proof (pow_pos (e + 40) ltac:(lia)). split; [lia|]. intros LE.
  destruct (in32_key e x ltac:(lia) H) as (a & Ka & B). apply (within_by S top HS Htop x a _ Ka); [|exact LE].
  rewrite <- Z.pow_add_r by lia. replace (e + 40 + (S - 40)) with (e + S) by lia. exact B.
Qed.

Lemma bounded_finite : forall x b, bd x b -> b <= lim -> is_finite (fl_val x) = true.
Proof. intros x b (_ & H) LE. now destruct (H LE). Qed.

(** * Angles *)

Lemma two_pi : srfft_2pi = S754_finite false 7074237752028440 (-50).
Proof. vm_compute. reflexivity. Qed.

Lemma double_key : forall n, 0 <= n <= 65535 -> valid_binary 53 1024 (double n) = true /\ key S top (double n) = Some (n * 2 ^ S) /\
  is_finite (double n) = true.
Proof.
  intros n Hn. unfold double. destruct (normalize_val 53 1024 P64 E64 S top S64 n 0 false ltac:(lia)) as (V & E).
  assert (EQ : n64 (n * 2 ^ (0 + S)) = n * 2 ^ S).
  { rewrite Z.add_0_l. pose proof (pow_pos S ltac:(lia)). unfold near_signed. destruct (Z.ltb_spec (n * 2 ^ S) 0); [nia|].
    apply near_multiple; auto; [|unfold emin; lia|].
    - split; [lia|]. apply (Z.le_lt_trans _ 65535); [lia|reflexivity].
    - rewrite Z.pow_add_r by lia. apply Z.mul_lt_mono_pos_r; [lia|]. apply (Z.le_lt_trans _ (2 ^ 16)); [lia|]. apply Z.pow_lt_mono_r; lia. }
  rewrite EQ in E. split; [exact V|]. split; [exact E|].
  apply (finite_by_key 53 1024 S top Htop _ (n * 2 ^ S) V E). pose proof (pow_pos S ltac:(lia)).
  rewrite Z.pow_add_r by lia. assert (65536 < 2 ^ 1024) by (change 65536 with (2 ^ 16); apply Z.pow_lt_mono_r; lia). nia.
Qed.

Lemma narrow_finite_by : forall x (k : Z) e, 0 <= e <= 126 -> valid_binary 53 1024 x = true -> key S top x = Some k -> Z.abs k <= 2 ^ (e + S) ->
  is_finite (fl_val (narrow (f64 x))) = true.
Proof.
  intros x k e He V Kx B. assert (E : fl_val (f64 x) = x) by (apply seal_val; exact V).
  assert (2 ^ (e + S) < 2 ^ (128 + S)) by (apply Z.pow_lt_mono_r; lia). pose proof (big S top HS).
  assert (Kf : K (f64 x) = Some k) by (rewrite E; exact Kx).
  assert (Ff : is_finite (fl_val (f64 x)) = true) by (apply (finite64 S top Htop _ k Kf); lia).
  apply (finite32 S top HS Htop _ (n32 k)); [exact (narrow_key S top HS _ k Ff Kf)|].
  pose proof (ns_abs 24 128 P32 E32 S top S32 T32 k (2 ^ (e + S)) B (pow32 e ltac:(lia))). lia.
Qed.

Lemma angle_finite : forall n m, 0 <= n <= 3 * m -> 0 < m <= 256 -> is_finite (fl_val (t_angle T n m)) = true.
Proof.
  intros n m Hn Hm. cbn [t_angle ieee_trig]. destruct (double_key n ltac:(lia)) as (Vn & Kn & Fn).
  destruct (double_key m ltac:(lia)) as (Vm & Km & Fm).
  assert (V2 : valid_binary 53 1024 srfft_2pi = true) by (vm_compute; reflexivity).
  assert (F2 : is_finite srfft_2pi = true) by (vm_compute; reflexivity).
  assert (K2 : key S top srfft_2pi = Some (7074237752028440 * 2 ^ (-50 + S))) by (rewrite two_pi; reflexivity).
  assert (PS : 0 < 2 ^ (-50 + S)) by (apply pow_pos; lia).
  assert (SS : 2 ^ S = 2 ^ 50 * 2 ^ (-50 + S)) by (rewrite <- Z.pow_add_r by lia; f_equal; lia).
  assert (S2 : - S <= 2 * emin 53 1024) by (unfold emin; lia).
  assert (S3 : - S <= emin 53 1024 - (1024 - 53)) by (unfold emin; lia).
  assert (SE : 2 ^ (13 + S) = 8192 * 2 ^ S) by (rewrite Z.pow_add_r by lia; reflexivity).
  destruct (mul_le 53 1024 P64 E64 S top S64 Htop (double n) srfft_2pi (n * 2 ^ S) (7074237752028440 * 2 ^ (-50 + S)) (2 ^ (13 + S)))
    as (k & Kk & Bk); try assumption; [pose proof (pow_pos (13 + S) ltac:(lia)); lia| |apply pow64; lia|].
  { rewrite SE. rewrite (Z.abs_eq (n * 2 ^ S)), Z.abs_eq by nia.
    assert (n * 7074237752028440 <= 8192 * 2 ^ 50).
    { transitivity (768 * 7074237752028440); [apply Z.mul_le_mono_nonneg_r; lia|discriminate]. }
    replace (n * 2 ^ S * (7074237752028440 * 2 ^ (-50 + S))) with (n * 7074237752028440 * (2 ^ S * 2 ^ (-50 + S))) by ring.
    replace (8192 * 2 ^ S * 2 ^ S) with (8192 * 2 ^ 50 * (2 ^ S * 2 ^ (-50 + S))) by (rewrite SS at 3; ring).
    apply Z.mul_le_mono_nonneg_r; [|assumption]. pose proof (pow_pos S ltac:(lia)). nia. }
  pose proof (mul_valid 53 1024 P64 E64 S top S64 Htop (double n) srfft_2pi S2 Vn V2) as Vp.
  assert (Fp : is_finite (SFmul 53 1024 (double n) srfft_2pi) = true).
  { apply (finite_by_key 53 1024 S top Htop _ k Vp Kk). assert (2 ^ (13 + S) < 2 ^ (1024 + S)) by (apply Z.pow_lt_mono_r; lia). lia. }
  pose proof (pow_pos S ltac:(lia)) as PSS.
  destruct (div_le 53 1024 P64 E64 S top S64 Htop _ (double m) k (m * 2 ^ S) (2 ^ (13 + S)) S3 Vp Vm Fp Fm Kk Km) as (q & Kq & Bq);
    [nia|lia| |apply pow64; lia|].
  { rewrite (Z.abs_eq (m * 2 ^ S)) by nia. nia. }
  apply (narrow_finite_by _ q 13); [lia| |exact Kq|exact Bq].
  apply (div_valid 53 1024 P64 E64 S top S64 Htop); assumption.
Qed.

Lemma root_small : in32 (1, -6) (t_root T 512 (-1)).
Proof. split; vm_compute; reflexivity. Qed.

Lemma trig_bounded : trig_alike bd T bounds_trig 256.
Proof.
  split.
  - intros n m Hn Hm. change (bd (lib_cos M (t_angle T n m)) (2 ^ (0 + 40))). apply in32_bounded; [lia|]. apply (lm_cos M HM). now apply angle_finite.
  - intros n m Hn Hm. change (bd (lib_sin M (t_angle T n m)) (2 ^ (0 + 40))). apply in32_bounded; [lia|]. apply (lm_sin M HM). now apply angle_finite.
  - intros x b. exact (bounded_neg S top HS x b).
  - change (bd (t_sqhalf T) (2 ^ (0 + 40))). apply in32_bounded; [lia|]. split; vm_compute; reflexivity.
  - intros x b H. destruct (ratio_le S top HS (ratio64 1 2) ltac:(auto)) as (V & F & kc & Kc & B).
    exact (bounded_times S top HS Htop _ kc x b V F Kc B H).
  - intros x b H. destruct (ratio_le S top HS (ratio64 (-1) 2) ltac:(auto)) as (V & F & kc & Kc & B).
    exact (bounded_times S top HS Htop _ kc x b V F Kc B H).
Qed.

Lemma root_bounded : bd (t_cos T (t_root T 512 (-1))) (t_cos bounds_trig (t_root bounds_trig 512 (-1))) /\
  bd (t_sin T (t_root T 512 (-1))) (t_sin bounds_trig (t_root bounds_trig 512 (-1))).
Proof.
  pose proof root_small as R. split.
  - change (bd (lib_cos M (t_root T 512 (-1))) (2 ^ (0 + 40))). apply in32_bounded; [lia|]. apply (lm_cos M HM).
    apply (bounded_finite _ (2 ^ (-6 + 40))); [now apply in32_bounded|discriminate].
  - change (bd (lib_sin M (t_root T 512 (-1))) (2 ^ (-6 + 40))). apply in32_bounded; [lia|]. now apply (lm_sin_small M HM).
Qed.

Lemma bounded_more : forall x a b, bd x a -> a <= b -> bd x b.
Proof.
  intros x a b (A & H) LE. split; [lia|]. intros Lb. destruct (H ltac:(lia)) as (Fx & k & Kx & B).
  apply (within_by S top HS Htop x k b Kx); [|exact Lb]. pose proof (scale_pos S HS). nia.
Qed.

(** * The window function *)

Lemma unit_const : forall s m, Zpos m <= 2 ^ 53 -> Z.abs (opp_if s (Zpos m * 2 ^ (-53 + S))) <= 2 ^ S.
Proof.
  intros s m B. rewrite abs_opp_if. pose proof (pow_pos (-53 + S) ltac:(lia)). rewrite Z.abs_eq by nia.
  replace (2 ^ S) with (2 ^ 53 * 2 ^ (-53 + S)); [nia|]. rewrite <- Z.pow_add_r by lia. f_equal. lia.
Qed.

Lemma hamming_bounded_at : forall x, is_finite (fl_val x) = true -> bd (i_hamming I x) (2 ^ 41).
Proof.
  intros x Fx. split; [discriminate|]. intros LE. cbn [i_hamming ieee_init].
  destruct (in64_key 0 (lib_cos_wide M x) ltac:(lia) (lm_cos_wide M HM x Fx)) as (ky & Ky & By). rewrite Z.add_0_l in By.
  assert (B1 : 2 ^ S < 2 ^ (1024 + S)) by (apply Z.pow_lt_mono_r; lia).
  assert (Fy : is_finite (fl_val (lib_cos_wide M x)) = true) by (apply (finite64 S top Htop _ ky Ky); lia).
  assert (C1 : ratio64 54 100 = S754_finite false 4863887597560136 (-53)) by (vm_compute; reflexivity).
  assert (C2 : ratio64 46 100 = S754_finite false 8286623314361713 (-54)) by (vm_compute; reflexivity).
  assert (V1 : valid_binary 53 1024 (ratio64 54 100) = true) by (vm_compute; reflexivity).
  assert (V2 : valid_binary 53 1024 (ratio64 46 100) = true) by (vm_compute; reflexivity).
  assert (K1 : exists k, key S top (ratio64 54 100) = Some k /\ Z.abs k <= 2 ^ S).
  { rewrite C1. cbn [key]. eexists. split; [reflexivity|]. now apply unit_const. }
  assert (K2 : exists k, key S top (ratio64 46 100) = Some k /\ Z.abs k <= 2 ^ S).
  { rewrite C2. cbn [key]. eexists. split; [reflexivity|].
    pose proof (unit_const false 4143311657180857 ltac:(discriminate)) as U. rewrite abs_opp_if in *.
    transitivity (Z.abs (4143311657180857 * 2 ^ (-53 + S))); [|exact U].
    replace (-53 + S) with (1 + (-54 + S)) by lia. rewrite (Z.pow_add_r 2 1) by lia. pose proof (pow_pos (-54 + S) ltac:(lia)).
    rewrite !Z.abs_eq by nia. change (2 ^ 1) with 2. nia. }
  destruct K1 as (k1 & K1 & L1), K2 as (k2 & K2 & L2).
  destruct (mul64_le S top HS Htop (ratio64 46 100) (lib_cos_wide M x) k2 ky V2 ltac:(rewrite C2; reflexivity) K2 L2 Fy Ky) as (Ep & k' & Kp & Bp).
  set (p := f64 (SFmul 53 1024 (ratio64 46 100) (fl_val (lib_cos_wide M x)))) in *. rewrite <- Ep in *.
  assert (Fp : is_finite (fl_val p) = true) by (apply (finite64 S top Htop p k' Kp); lia).
  assert (E1 : 2 ^ (1 + S) = 2 * 2 ^ S) by (rewrite Z.pow_add_r by lia; reflexivity).
  destruct (sub_le 53 1024 P64 E64 S top S64 Htop (ratio64 54 100) (fl_val p) k1 k' (2 ^ (1 + S)) V1 (fl_valid p)
    ltac:(rewrite C1; reflexivity) Fp K1 Kp ltac:(lia) (pow64 1 ltac:(lia))) as (q & Kq & Bq).
  assert (Vd : valid_binary 53 1024 (SFsub 53 1024 (ratio64 54 100) (fl_val p)) = true)
    by (apply (sub_valid 53 1024 P64 E64 S top S64); [exact V1|apply fl_valid]).
  set (d := SFsub 53 1024 (ratio64 54 100) (fl_val p)) in *.
  assert (Ed : fl_val (f64 d) = d) by (apply seal_val; exact Vd).
  assert (B2 : 2 ^ (1 + S) < 2 ^ (1024 + S)) by (apply Z.pow_lt_mono_r; lia).
  assert (Fd : is_finite (fl_val (f64 d)) = true) by (apply (finite64 S top Htop (f64 d) q); [rewrite Ed; exact Kq|lia]).
  apply (within_by S top HS Htop _ (n32 q)); [|rewrite <- Z.pow_add_r by lia; replace (41 + (S - 40)) with (1 + S) by lia|exact LE].
  - apply (narrow_key S top HS (f64 d) q Fd). rewrite Ed. exact Kq.
  - apply (ns_abs 24 128 P32 E32 S top S32 T32 q _ Bq). apply pow32. lia.
Qed.

Lemma hamming_bounded : Forall2 bd (hamming O I) (repeat (2 * one) 400).
Proof.
  unfold hamming. change (frame_length - 1) with 399. change (Z.to_nat frame_length) with 400%nat.
  set (a := i_step I 399). assert (A : bd a (2 ^ (0 + 40))).
  { apply in32_bounded; [lia|]. split; vm_compute; reflexivity. }
  assert (G : forallb (fun i => up_mul (2 ^ 40) (up (Z.abs i * one)) <=? lim) (seqZ 0 400) = true) by (vm_compute; reflexivity).
  rewrite forallb_forall in G.
  assert (H : forall n l, List.length l = n -> (forall i, In i l -> up_mul (2 ^ 40) (up (Z.abs i * one)) <= lim) ->
    Forall2 bd (map (fun i => i_hamming I (f_mul O a (f_int O i))) l) (repeat (2 * one) n)).
  { clear G. induction n as [|n IH]; intros [|i l] Hl G; try discriminate Hl; cbn [map repeat]; constructor.
    - apply hamming_bounded_at. apply (bounded_finite _ (up_mul (2 ^ 40) (up (Z.abs i * one)))); [|apply G; now left].
      apply (bounded_mul S top HS Htop L); [exact A|apply (bounded_int S top HS Htop L)].
    - apply IH; [now injection Hl|]. intros. apply G. now right. }
  apply H; [apply seqZ_length|]. intros i Hi. apply Z.leb_le. now apply G.
Qed.

(** * The weights of the filters *)

Definition mel_arg (freq : float32) : float32 := f_add O (f_int O 1) (f_div O freq (f_int O 700)).
Definition mel_top : Z := 2 ^ 60.
Definition mel_high : Z := 2 ^ 53.

Lemma mel_scale_bounded : forall freq, SFleb (num32 1 0) (fl_val (mel_arg freq)) = true -> in32 (1, 4) (mel_arg freq) ->
  bd (mel_scale O I freq) mel_high.
Proof.
  intros freq H1 H2. unfold mel_scale. fold (mel_arg freq). apply (bounded_more _ (up_mul (up (Z.abs 1127 * one)) (2 ^ (2 + 40)))); [|vm_compute; discriminate].
  apply (bounded_mul S top HS Htop L); [apply (bounded_int S top HS Htop L)|]. apply in32_bounded; [lia|]. now apply (lm_logf M HM).
Qed.

Definition arg_ok (freq : float32) : bool :=
  SFleb (num32 1 0) (fl_val (mel_arg freq)) && (SFleb (num32 (- 1) 4) (fl_val (mel_arg freq)) && SFleb (fl_val (mel_arg freq)) (num32 1 4)).
Lemma mel_scale_ok : forall freq, arg_ok freq = true -> bd (mel_scale O I freq) mel_high.
Proof.
  intros freq H. apply andb_true_iff in H as (H1 & H). apply andb_true_iff in H as (H2 & H3).
  apply mel_scale_bounded; [exact H1|split; assumption].
Qed.

Lemma bins_arg_ok : forallb (fun i => arg_ok (f_mul O (bank_width O) (f_int O i))) (seqZ 0 256) = true.
Proof. vm_compute. reflexivity. Qed.

Lemma bin_bounded : forall i, 0 <= i < 256 -> bd (mel_scale O I (f_mul O (bank_width O) (f_int O i))) mel_top.
Proof.
  intros i Hi. apply (bounded_more _ mel_high); [|discriminate]. apply mel_scale_ok. pose proof bins_arg_ok as G.
  rewrite forallb_forall in G. apply G. apply in_seqZ. lia.
Qed.

Lemma edge_bounded : forall j, 0 <= j <= 41 -> bd (bank_edge O I j) mel_top.
Proof.
  intros j Hj. unfold bank_edge.
  assert (Lo : bd (mel_scale O I (f_int O 20)) mel_high) by (apply mel_scale_ok; vm_compute; reflexivity).
  assert (Hi : bd (mel_scale O I (f_int O 8000)) mel_high) by (apply mel_scale_ok; vm_compute; reflexivity).
  apply (bounded_more _ (up (mel_high + up_mul (up (Z.abs j * one)) (up (mel_high + mel_high))))).
  - apply (bounded_add S top HS Htop L); [exact Lo|]. apply (bounded_mul S top HS Htop L); [apply (bounded_int S top HS Htop L)|].
    apply (bounded_mean S top HS Htop L); [lia|]. now apply (bounded_sub S top HS Htop L).
  - assert (G : forallb (fun j => up (mel_high + up_mul (up (Z.abs j * one)) (up (mel_high + mel_high))) <=? mel_top) (seqZ 0 42) = true)
      by (vm_compute; reflexivity).
    rewrite forallb_forall in G. apply Z.leb_le, G, in_seqZ. lia.
Qed.

Lemma key_multiple : forall (x : float32) a, is_finite (fl_val x) = true -> K x = Some a -> exists c, a = c * 2 ^ (emin 24 128 + S).
Proof.
  intros x a Fx Ka. pose proof (fl_valid x) as V. destruct (fl_val x) as [s|s| |s m e]; try discriminate Fx; cbn [key] in Ka; apply some_inj in Ka; subst a.
  - exists 0. reflexivity.
  - destruct (valid_facts 24 128 P32 S S32 s m e V) as (Be & _). exists (opp_if s (Zpos m * 2 ^ (e - emin 24 128))).
    replace (e + S) with ((e - emin 24 128) + (emin 24 128 + S)) by lia. rewrite Z.pow_add_r by lia.
    destruct s; cbn [opp_if]; ring.
Qed.

(** The difference of different numbers is not rounded to 0. *)
Lemma gap_pos : forall (x y : float32) a b, is_finite (fl_val x) = true -> is_finite (fl_val y) = true -> K x = Some a -> K y = Some b -> b < a ->
  0 < n32 (a - b).
Proof.
  intros x y a b Fx Fy Ka Kb LT. destruct (key_multiple x a Fx Ka) as (c & ->), (key_multiple y b Fy Kb) as (c' & ->).
  pose proof (pow_pos (emin 24 128 + S) ltac:(lia)) as P. assert (c' < c) by nia.
  assert (E : n32 (2 ^ (emin 24 128 + S)) = 2 ^ (emin 24 128 + S)).
  { unfold near_signed. destruct (Z.ltb_spec (2 ^ (emin 24 128 + S)) 0); [lia|]. rewrite <- (Z.mul_1_l (2 ^ _)) at 1 2.
    apply near_multiple; auto; [split; [lia|reflexivity]|lia|]. rewrite Z.mul_1_l. apply Z.pow_lt_mono_r; unfold emin; lia. }
  pose proof (mono32 S top HS Htop (2 ^ (emin 24 128 + S)) (c * 2 ^ (emin 24 128 + S) - c' * 2 ^ (emin 24 128 + S)) ltac:(nia)). lia.
Qed.

(** The quotient of a difference by one that is not smaller. *)
Lemma share_bounded : forall x y u v kx ky ku kv, bd x mel_top -> bd y mel_top -> bd u mel_top -> bd v mel_top ->
  K x = Some kx -> K y = Some ky -> K u = Some ku -> K v = Some kv -> ky < kx -> kx - ky <= ku - kv ->
  bd (f_div O (f_sub O x y) (f_sub O u v)) one.
Proof.
  intros x y u v kx ky ku kv Bx By Bu Bv Kx Ky Ku Kv LT LE.
  assert (ML : mel_top <= lim) by discriminate. assert (UL : up (mel_top + mel_top) <= lim) by (vm_compute; discriminate).
  pose proof (bounded_finite x _ Bx ML) as Fx. pose proof (bounded_finite y _ By ML) as Fy.
  pose proof (bounded_finite u _ Bu ML) as Fu. pose proof (bounded_finite v _ Bv ML) as Fv.
  pose proof (bounded_sub S top HS Htop L x y _ _ Bx By) as B1. pose proof (bounded_sub S top HS Htop L u v _ _ Bu Bv) as B2.
  pose proof (bounded_finite _ _ B1 UL) as F1. pose proof (bounded_finite _ _ B2 UL) as F2.
  destruct (sub_val 24 128 P32 E32 S top S32 (fl_val x) (fl_val y) kx ky (fl_valid x) (fl_valid y) Fx Fy Kx Ky) as (_ & K1).
  destruct (sub_val 24 128 P32 E32 S top S32 (fl_val u) (fl_val v) ku kv (fl_valid u) (fl_valid v) Fu Fv Ku Kv) as (_ & K2).
  rewrite <- (sub32_val S top HS L) in K1, K2.
  pose proof (gap_pos x y kx ky Fx Fy Kx Ky LT) as G1. pose proof (mono32 S top HS Htop (kx - ky) (ku - kv) LE) as G2.
  split; [discriminate|]. intros _. pose proof (pow_pos S ltac:(lia)) as PS.
  destruct (div_le 24 128 P32 E32 S top S32 T32 _ _ _ _ (2 ^ (0 + S)) ltac:(unfold emin; lia)
    (fl_valid (f_sub O x y)) (fl_valid (f_sub O u v)) F1 F2 K1 K2) as (q & Kq & Bq); [lia|rewrite Z.add_0_l; lia| |apply pow32; lia|].
  { rewrite Z.add_0_l. rewrite (Z.abs_eq (n32 (kx - ky))), Z.abs_eq by lia. nia. }
  rewrite <- (div32_val S top HS Htop L) in Kq. apply (within_by S top HS Htop _ q _ Kq); [|discriminate].
  rewrite (scale_one S HS). exact Bq.
Qed.

Lemma lt_key : forall x y : float32, f_lt O x y = true -> exists a b, K x = Some a /\ K y = Some b /\ a < b.
Proof.
  intros x y H. cbn [f_lt ieee] in H. rewrite (lt32 S top HS Htop) in H. unfold less in H.
  destruct (K x) as [a|]; [|discriminate]. destruct (K y) as [b|]; [|discriminate]. exists a, b. apply Z.ltb_lt in H. auto.
Qed.

Lemma weight_bounded : forall j i, 0 <= j < 40 -> 0 <= i < 256 ->
  bd (bin_value O I (bank_width O) (bank_edge O I j) (bank_edge O I (j + 1)) (bank_edge O I (j + 2)) i) one.
Proof.
  intros j i Hj Hi. unfold bin_value, inside, bin_weight.
  pose proof (bin_bounded i Hi) as Bm. pose proof (edge_bounded j ltac:(lia)) as Bl.
  pose proof (edge_bounded (j + 1) ltac:(lia)) as Bc. pose proof (edge_bounded (j + 2) ltac:(lia)) as Br.
  set (m := mel_scale O I (f_mul O (bank_width O) (f_int O i))) in *.
  set (l := bank_edge O I j) in *. set (c := bank_edge O I (j + 1)) in *. set (r := bank_edge O I (j + 2)) in *.
  destruct (f_lt O l m) eqn:H1; cbn [andb]; [|apply (bounded_more _ 0); [apply bounded_zero|discriminate]].
  destruct (f_lt O m r) eqn:H2; [|apply (bounded_more _ 0); [apply bounded_zero|discriminate]].
  destruct (lt_key l m H1) as (kl & km & Kl & Km & L1). destruct (lt_key m r H2) as (km' & kr & Km' & Kr & L2).
  rewrite Km in Km'. apply some_inj in Km'. subst km'.
  assert (ML : mel_top <= lim) by discriminate.
  destruct Bc as (Bc0 & Bc1). destruct (Bc1 ML) as (Fc & kc & Kc & _). assert (Bc : bd c mel_top) by (split; assumption).
  cbn [i_le ieee_init]. rewrite (le_val 24 128 P32 E32 S top S32 T32 _ _ (fl_valid m) (fl_valid c)), Km, Kc.
  destruct (Z.leb_spec km kc).
  - apply (share_bounded m l c l km kl kc kl); auto; lia.
  - apply (share_bounded r m r c kr km kr kc); auto; lia.
Qed.

(** * Energies *)

Lemma vec_vec_finite : forall a b s, (List.length b <= 512)%nat -> Forall (fun x => bd x one) a -> Forall (fun x => bd x peak) b ->
  vec_vec O a b = Ok s -> is_finite (fl_val s) = true.
Proof.
  intros a b s Lb Ha Hb E. unfold vec_vec in E. destruct (lenZ b =? lenZ a) eqn:EL; [|discriminate E]. cbn [check bind] in E.
  apply Z.eqb_eq in EL.
  destruct (for_up_inv float32 (fun k s => within s (k * peak))
    (fun s i => x <- getZ a i ;; y <- getZ b i ;; Ok (f_add O s (f_mul O x y))) 0 (lenZ b) (f_zero O)) as (s' & E' & W).
  - apply lenZ_nonneg.
  - split; [reflexivity|]. exists 0. split; [reflexivity|lia].
  - intros k t Hk (Ft & kt & Kt & Bt).
    rewrite (getZ_nth _ a k (f_zero O)), (getZ_nth _ b k (f_zero O)) by lia. cbn [bind]. eexists. split; [reflexivity|].
    set (x := nth (Z.to_nat k) a (f_zero O)). set (y := nth (Z.to_nat k) b (f_zero O)).
    assert (Bx : bd x one) by (rewrite Forall_forall in Ha; apply Ha, nth_In; unfold lenZ in *; lia).
    assert (By : bd y peak) by (rewrite Forall_forall in Hb; apply Hb, nth_In; unfold lenZ in *; lia).
    destruct (proj2 Bx ltac:(discriminate)) as (Fx & kx & Kx & Gx). destruct (proj2 By ltac:(discriminate)) as (Fy & ky & Ky & Gy).
    rewrite (scale_one S HS) in Gx. pose proof (scale_pos S HS) as SP. pose proof (pow_pos S ltac:(lia)) as PS.
    assert (Kk : 0 <= k < 512) by (unfold lenZ in Hk; lia).
    assert (PP : peak = 1 * 2 ^ 157) by reflexivity. assert (P0 : 0 < peak) by reflexivity. assert (LL : lim = 512 * peak) by reflexivity.
    destruct (stays S top HS 1 157 ltac:(split; [lia|reflexivity]) ltac:(lia) ltac:(discriminate)) as (N1 & _). rewrite <- PP in N1.
    destruct (mul_le 24 128 P32 E32 S top S32 T32 (fl_val x) (fl_val y) kx ky (peak * 2 ^ (S - 40)) ltac:(unfold emin; lia)
      (fl_valid x) (fl_valid y) Fx Fy Kx Ky ltac:(nia)) as (p & Kp & Bp); [|exact N1|].
    { rewrite Z.mul_comm. apply Z.mul_le_mono_nonneg; lia. }
    rewrite <- (mul32_val S top HS Htop L) in Kp.
    assert (Fp : is_finite (fl_val (f_mul O x y)) = true).
    { apply (within_by S top HS Htop _ p peak Kp Bp). discriminate. }
    destruct (stays S top HS (k + 1) 157) as (N2 & _); [split; [lia|]|lia| |].
    { apply (Z.le_lt_trans _ 512); [lia|reflexivity]. } { change (2 ^ 157) with peak. nia. }
    change (2 ^ 157) with peak in N2.
    destruct (add_le 24 128 P32 E32 S top S32 T32 (fl_val t) (fl_val (f_mul O x y)) kt p ((k + 1) * peak * 2 ^ (S - 40))
      (fl_valid t) (fl_valid _) Ft Fp Kt Kp) as (q & Kq & Bq); [lia|exact N2|].
    rewrite <- (add32_val S top HS L) in Kq. apply (within_by S top HS Htop _ q _ Kq Bq). nia.
  - rewrite E' in E. injection E as ->. now destruct W.
Qed.

Lemma mel_finite : forall spectrum, List.length spectrum = 512%nat -> Forall (fun x => bd x peak) spectrum -> forall bins out e,
  Forall (fun b => Forall (fun x => bd x one) (snd b)) bins ->
  Forall (fun x => is_finite (fl_val x) = true) out ->
  for_each bins (fun out '(offset, bin) =>
    sub <- vrange spectrum offset (lenZ bin) ;;
    e <- vec_vec O bin sub ;;
    Ok (out ++ [e])) out = Ok e -> Forall (fun x => is_finite (fl_val x) = true) e.
Proof.
  intros sp LS HP. induction bins as [|[o b] bins IH]; intros out e HB HOut E; cbn [for_each] in E; [injection E as <-; exact HOut|].
  inversion HB as [|? ? B1 B2]; subst. cbn [snd] in B1. unfold vrange in E.
  destruct (o + lenZ b <=? lenZ sp); [|discriminate E]. destruct ((0 <=? o) && (0 <=? lenZ b)); [|discriminate E]. cbn [check bind] in E.
  destruct (vec_vec O b _) as [s|] eqn:V; [|discriminate E]. cbn [bind] in E. apply IH in E; [exact E|exact B2|].
  apply Forall_app. split; [exact HOut|]. constructor; [|constructor]. apply vec_vec_finite in V; [exact V| |exact B1|].
  - rewrite firstn_length, skipn_length. lia.
  - apply Forall_forall. intros x Hx. rewrite Forall_forall in HP. apply HP. 
    rewrite <- (firstn_skipn (Z.to_nat o) sp). apply in_or_app. right.
    rewrite <- (firstn_skipn (Z.to_nat (lenZ b)) (skipn (Z.to_nat o) sp)). apply in_or_app. now left.
Qed.

Lemma key_in32 : forall e (x : float32) a, -100 <= e <= 126 -> K x = Some a -> Z.abs a <= 2 ^ (e + S) -> in32 (1, e) x.
Proof.
  intros e x a He Ka B. unfold in32, num32. cbn [Datatypes.fst snd].
  destruct (normalize_val 24 128 P32 E32 S top S32 1 e false ltac:(lia)) as (V1 & K1).
  destruct (normalize_val 24 128 P32 E32 S top S32 (- (1)) e false ltac:(lia)) as (V2 & K2).
  rewrite !(le_val 24 128 P32 E32 S top S32 T32) by (assumption || apply fl_valid).
  rewrite K1, K2, Ka. rewrite Z.mul_opp_l, Z.mul_1_l, near_signed_opp, pow32 by assumption. split; apply Z.leb_le; lia.
Qed.

(** Energies below FLT_EPSILON = 2 ^ -23 are replaced by it. *)
Lemma floor_key : forall x : float32, is_finite (fl_val x) = true ->
  let y := if f_lt O x (f_eps O) then f_eps O else x in
  is_finite (fl_val y) = true /\ exists a, K y = Some a /\ 2 ^ (-23 + S) <= a.
Proof.
  intros x Fx y.
  assert (E : fl_val (f_eps O) = S754_finite false 8388608 (-46)) by (vm_compute; reflexivity).
  assert (Ke : K (f_eps O) = Some (2 ^ (-23 + S))).
  { rewrite E. cbn [key opp_if]. f_equal. change (Zpos 8388608) with (2 ^ 23). rewrite <- Z.pow_add_r by lia. f_equal. lia. }
  unfold y. destruct (f_lt O x (f_eps O)) eqn:H; [split; [now rewrite E|exists (2 ^ (-23 + S)); split; [exact Ke|lia]]|].
  split; [exact Fx|]. cbn [f_lt ieee] in H. change (f32 (binary_round 24 128 false 1 (-23))) with (f_eps O) in H.
  rewrite (lt32 S top HS Htop) in H. destruct (finite_key S top _ Fx) as (a & Ka). exists a. split; [exact Ka|].
  rewrite Ka, Ke in H. cbn [less] in H. now apply Z.ltb_ge in H.
Qed.

Lemma floor_nonneg : forall x : float32, is_finite (fl_val x) = true -> f_nonneg O (if f_lt O x (f_eps O) then f_eps O else x) = true.
Proof.
  intros x Fx. destruct (floor_key x Fx) as (_ & a & Ka & B). set (y := if f_lt O x (f_eps O) then f_eps O else x) in *. clearbody y.
  cbn [f_nonneg ieee]. rewrite (le_val 24 128 P32 E32 S top S32 T32 (S754_zero false) (fl_val y) eq_refl (fl_valid y)).
  rewrite Ka. cbn [key]. apply Z.leb_le. pose proof (pow_pos (-23 + S) ltac:(lia)). lia.
Qed.

Lemma log_in : sane_log L -> forall x : float32, is_finite (fl_val x) = true ->
  in32 (1, 7) (f_log O (if f_lt O x (f_eps O) then f_eps O else x)).
Proof.
  intros HL x Fx. destruct (floor_key x Fx) as (Fy & a & Ka & B). set (y := if f_lt O x (f_eps O) then f_eps O else x) in *. clearbody y.
  cbn [f_log ieee].
  destruct (normalize_val 53 1024 P64 E64 S top S64 1 (-23) false ltac:(lia)) as (V1 & K1).
  destruct (normalize_val 53 1024 P64 E64 S top S64 1 128 false ltac:(lia)) as (V2 & K2).
  assert (N : n64 (2 ^ (128 + S)) = 2 ^ (128 + S)).
  { pose proof (pow_pos (128 + S) ltac:(lia)). unfold near_signed. destruct (Z.ltb_spec (2 ^ (128 + S)) 0); [lia|].
    rewrite <- (Z.mul_1_l (2 ^ (128 + S))). apply near_multiple; auto; [split; [lia|reflexivity]|unfold emin; lia|].
    rewrite Z.mul_1_l. apply Z.pow_lt_mono_r; lia. }
  assert (G : in64 (1, 7) (lib_log L (widen y))).
  { apply HL; unfold num64; rewrite (le_val 53 1024 P64 E64 S top S64 Htop) by (assumption || apply fl_valid).
    - rewrite K1, Z.mul_1_l, pow64 by lia. pose proof (widen_key S top HS y) as W. rewrite W, Ka. now apply Z.leb_le.
    - rewrite K2, Z.mul_1_l, N. pose proof (widen_key S top HS y) as W. rewrite W, Ka.
      apply Z.leb_le. pose proof (bound32 S top HS y a Fy Ka). lia. }
  destruct (in64_key 7 _ ltac:(lia) G) as (k & Kk & Bk).
  assert (2 ^ (7 + S) < 2 ^ (1024 + S)) by (apply Z.pow_lt_mono_r; lia).
  assert (Ff : is_finite (fl_val (lib_log L (widen y))) = true) by (apply (finite64 S top Htop _ k Kk); lia).
  apply (key_in32 7 _ (n32 k)); [lia|exact (narrow_key S top HS _ k Ff Kk)|].
  exact (ns_abs 24 128 P32 E32 S top S32 T32 k (2 ^ (7 + S)) Bk (pow32 7 ltac:(lia))).
Qed.

(** * Frames *)

Variable junk : nat -> float32.
Variable junk_int : nat -> Z.

Lemma vague : forall x, bd x (lim + 1).
Proof. intros x. split; [discriminate|]. unfold lim. lia. Qed.

Lemma bins_bounded : forall fb, fbank_new O T I junk junk_int = Ok fb -> Forall (fun b => Forall (fun x => bd x one) (snd b)) (fb_bins fb).
Proof.
  intros fb E. destruct (fbank_new_ok O T I junk junk_int) as [[E' _]|(fb' & f & E' & _ & _ & LB & _ & HB & _)]; [congruence|].
  assert (fb' = fb) as -> by congruence. apply Forall_forall. intros b Hb. destruct (In_nth _ _ (0, []) Hb) as (j & Hj & <-).
  rewrite LB in Hj. specialize (HB (Z.of_nat j) ltac:(lia)). rewrite Nat2Z.id in HB.
  destruct HB as (O1 & _ & O2 & W & _). apply Forall_forall. intros x Hx. destruct (In_nth _ _ (f_zero O) Hx) as (i & Hi & <-).
  set (b := nth j (fb_bins fb) (0, [])) in *. specialize (W (Datatypes.fst b + Z.of_nat i) ltac:(unfold lenZ; lia)).
  replace (Z.to_nat (Datatypes.fst b + Z.of_nat i - Datatypes.fst b)) with i in W by lia. rewrite W.
  apply weight_bounded; unfold lenZ in *; lia.
Qed.

Lemma log_all : sane_log L -> forall v out e,
  Forall (fun x => is_finite (fl_val x) = true) v -> Forall (in32 (1, 7)) out ->
  for_each (map (fun x => if f_lt O x (f_eps O) then f_eps O else x) v)
    (fun out x => _ <- check (f_nonneg O x) Assert ;; Ok (out ++ [f_log O x])) out = Ok e ->
  Forall (in32 (1, 7)) e.
Proof.
  intros HL. induction v as [|x v IH]; intros out e Hv Ho E; cbn [map for_each] in E; [injection E as <-; exact Ho|].
  inversion Hv as [|? ? Fx Fv]; subst. rewrite (floor_nonneg x Fx) in E. cbn [check bind] in E.
  apply IH in E; [exact E|exact Fv|]. apply Forall_app. split; [exact Ho|]. constructor; [|constructor]. now apply log_in.
Qed.

Lemma same_ok : forall A B (R : A -> B -> Prop) r r' b, same R r r' -> r' = Ok b -> exists a, r = Ok a /\ R a b.
Proof. intros A B R [a|] [b'|] b H E; cbn [same] in H; inversion E; subst; [eauto|contradiction]. Qed.

Lemma all_peak : forall z z', Forall2 bd z z' -> forallb (fun b => b <=? peak) z' = true -> Forall (fun x => bd x peak) z.
Proof.
  intros z z' H. induction H as [|v v' z z' Hv H IH]; intros G; constructor; cbn [forallb] in G; apply andb_true_iff in G as (G1 & G2).
  - apply (bounded_more _ v' _ Hv). now apply Z.leb_le.
  - now apply IH.
Qed.

Lemma small_bits : forall k, count_bits 32 (Z.quot 512 2) 0 = Ok k -> 2 ^ k <= 256.
Proof. intros k Ek. change (Z.quot 512 2) with 256 in Ek. vm_compute in Ek. injection Ek as <-. discriminate. Qed.

Lemma spectrum_bounded : forall f w, srfft_new O T junk junk_int 512 = Ok f -> List.length w = 400%nat -> Forall sample w ->
  exists x y z b, process_window O (hamming O I) w = Ok x /\
    compute O T f (x ++ repeat (f_zero O) 112) 512 true (malloc junk 512) 512 = Ok (y, b) /\
    power_spectrum O y = Ok z /\ Forall (fun x => bd x peak) z.
Proof.
  intros f w Ef Lw Hw. destruct (chain_split _ _ _ _ (bound_run_ok junk_int)) as (x' & f' & y' & b' & z' & E1 & E2 & E3 & E4 & RUN).
  assert (Rw : Forall2 bd w (repeat (2 ^ 31 * one) 400)).
  { rewrite <- Lw. clear Lw. induction Hw as [|x w Hx Hw IH]; cbn [List.length repeat]; constructor; [|exact IH].
    apply (in32_bounded 31); [lia|exact Hx]. }
  pose proof (process_window_alike bd O bounds (ops_bounded S top HS Htop L) _ _ _ _ hamming_bounded Rw) as A1.
  destruct (same_ok _ _ _ _ _ x' (A1 ltac:(
    intros s s' Hs; apply (bounded_mean S top HS Htop L); [unfold lenZ; rewrite Lw; lia|exact Hs])) E1) as (x & Ex & Rx).
  pose proof (srfft_new_alike bd O bounds T bounds_trig 256 (ops_bounded S top HS Htop L) trig_bounded junk (fun _ => lim + 1) junk_int
    (fun n => vague (junk n)) 512 small_bits) as A2.
  destruct (same_ok _ _ _ _ _ f' A2 E2) as (f0 & Ef0 & Rf). rewrite Ef in Ef0. injection Ef0 as <-.
  assert (N : s_n f = 256).
  { unfold srfft_new in Ef. change (Z.quot 512 2) with 256 in Ef. destruct (check _ _); [|discriminate Ef]. cbn [bind] in Ef.
    destruct (count_bits _ _ _); [|discriminate Ef]. cbn [bind] in Ef. destruct (seed_table _ _); [|discriminate Ef]. cbn [bind] in Ef.
    destruct (trig_tables _ _ _ _); [|discriminate Ef]. cbn [bind] in Ef. injection Ef as <-. reflexivity. }
  destruct root_bounded as (RC & RS). change 512 with (256 * 2) in RC, RS. rewrite <- N in RC, RS.
  pose proof (compute_alike bd O bounds T bounds_trig 256 (ops_bounded S top HS Htop L) trig_bounded f f'
    (x ++ repeat (f_zero O) 112) (x' ++ repeat 0 112) 512 (malloc junk 512) (malloc (fun _ => lim + 1) 512) 512 Rf) as A3.
  destruct (same_ok _ _ _ _ _ (y', b') (A3
    ltac:(apply Forall2_app; [exact Rx|apply same_repeat; apply bounded_zero])
    ltac:(apply same_malloc; intros n; apply vague) RC RS) E3) as ([y b] & Ey & Ry & _).
  cbn [Datatypes.fst snd] in Ry.
  pose proof (power_spectrum_alike bd O bounds (ops_bounded S top HS Htop L) _ _ Ry) as A4.
  destruct (same_ok _ _ _ _ _ z' A4 E4) as (z & Ez & Rz).
  exists x, y, z, b. repeat (split; [assumption|]). exact (all_peak z z' Rz RUN).
Qed.

Lemma frame_bounded : forall fb w, fbank_new O T I junk junk_int = Ok fb -> List.length w = 400%nat -> Forall sample w ->
  exists r, frame_features O fb w = Ok r /\ List.length r = 40%nat /\ (sane_log L -> Forall (in32 (1, 7)) r).
Proof.
  intros fb w E Lw Hw. pose proof (bins_bounded fb E) as BB.
  destruct (fbank_new_ok O T I junk junk_int) as [[E' _]|(fb' & f & E' & Ef & (P & W & B & TT) & LB & HW & _ & HF)]; [congruence|].
  assert (fb' = fb) as -> by congruence. clear E'.
  destruct (spectrum_bounded f w Ef Lw Hw) as (x & y & z & b & Ex & Ey & Ez & Bz).
  destruct (process_window_ok O (hamming O I) w (f_zero O)) as (x0 & E0 & Lx & _);
    [intros ->; discriminate Lw|rewrite hamming_length; lia|].
  assert (x0 = x) as -> by congruence. clear E0.
  assert (Lp : lenZ (x ++ repeat (f_zero O) 112) = 512).
  { unfold lenZ. rewrite app_length, repeat_length, Lx, Lw. reflexivity. }
  assert (Ey' : fb_fft fb (x ++ repeat (f_zero O) 112) = Ok y).
  { rewrite HF, Lp, Ey. reflexivity. }
  destruct (TT _ Lp) as (y0 & Ey0 & Ly). assert (y0 = y) as -> by congruence.
  destruct (power_spectrum_ok O y (f_zero O) 256) as (z0 & Ez0 & Lz & _); [apply Nat.leb_le; reflexivity|unfold lenZ in *; lia|].
  assert (z0 = z) as -> by congruence.
  destruct (mel_ok O z ltac:(unfold lenZ in *; lia) (fb_bins fb) [] B) as (e & Ee & Le).
  assert (Fe : Forall (fun x => is_finite (fl_val x) = true) e).
  { apply (mel_finite z ltac:(unfold lenZ in *; lia) Bz (fb_bins fb) [] e BB); [constructor|exact Ee]. }
  destruct (log_ok O (apply_floor O (f_eps O) e) []) as (r & Er & Lr).
  { unfold apply_floor. apply Forall_map. apply Forall_forall. intros v Hv. rewrite Forall_forall in Fe. now apply floor_nonneg, Fe. }
  exists r. split; [|split].
  - unfold frame_features, extract_window, frame_shift, frame_length.
    rewrite P. unfold lenZ at 1. rewrite Lw.
    change ((0 <=? 0 * 160) && (0 * 160 + 400 <=? Z.of_nat 400)) with true.
    change (400 <=? 512) with true. cbn [check bind].
    rewrite vrange_ok by (unfold lenZ; rewrite ?Lw; lia). cbn [bind].
    change (Z.to_nat (0 * 160)) with 0%nat. cbn [skipn]. rewrite firstn_all2 by lia.
    rewrite HW, Ex. cbn [bind]. change (Z.to_nat (512 - 400)) with 112%nat. unfold compute_frame.
    rewrite Ey'. cbn [bind]. rewrite Ez. cbn [bind]. unfold mel_compute. rewrite Ee. cbn [bind]. exact Er.
  - rewrite Lr. unfold apply_floor. rewrite map_length, Le, LB. reflexivity.
  - intros HL. apply (log_all HL e [] r Fe); [constructor|exact Er].
Qed.
End Bound.

(** * Streams *)

Section Stream.
Variable L : library.
Variable M : trig_library.
Hypothesis HM : libm M.
Variable junk : nat -> float32.
Variable junk_int : nat -> Z.
Variable fb : fbank float32.
Hypothesis E : fbank_new (ieee L) (ieee_trig M) (ieee_init M) junk junk_int = Ok fb.

Lemma window_sample : forall samples w, Forall sample samples -> In w (windows 400 160 samples) -> Forall sample w.
Proof.
  intros samples w H Hw. unfold windows in Hw. apply in_map_iff in Hw as (k & <- & _). unfold window.
  apply Forall_forall. intros x Hx. rewrite Forall_forall in H. apply H.
  rewrite <- (firstn_skipn (k * 160) samples). apply in_or_app. right.
  rewrite <- (firstn_skipn 400 (skipn (k * 160) samples)). apply in_or_app. now left.
Qed.

Lemma window_features : forall samples w, Forall sample samples -> In w (windows 400 160 samples) ->
  exists r b, fbank_process (ieee L) fb [] w = Ok ([r], b) /\ List.length r = 40%nat /\ (sane_log L -> Forall (in32 (1, 7)) r).
Proof.
  intros samples w H Hw. pose proof (windows_length _ _ _ Hw) as Lw.
  destruct (frame_bounded 2200 (2 ^ 3224) ltac:(lia) ltac:(apply Z.le_refl) L M HM junk junk_int fb w E Lw (window_sample _ _ H Hw)) as (r & Er & Lr & Br).
  apply single_frame in Er; [|exact Lw]. destruct Er as (b & Eb). eauto.
Qed.

Lemma finite_stream : forall ps, Forall (fun p => p <> [] /\ lenZ p < 536870000) ps -> Forall sample (concat ps) ->
  exists outs b, fbank_run (ieee L) fb [] ps = Ok (outs, b) /\
    List.length (concat outs) = num_windows 400 160 (List.length (concat ps)) /\
    Forall (fun r => List.length r = 40%nat) (concat outs) /\
    (sane_log L -> Forall (Forall (in32 (1, 7))) (concat outs)).
Proof.
  intros ps HP HB. destruct (stream_features (ieee L) fb ps HP) as (outs & b & Er & Fr).
  { intros w Hw. destruct (window_features (concat ps) w HB Hw) as (r & b & Eb & _). eauto. }
  exists outs, b. split; [exact Er|]. split.
  { rewrite <- (Forall2_len _ _ _ _ _ Fr). unfold windows. now rewrite map_length, seq_length. }
  assert (G : Forall (fun r => List.length r = 40%nat /\ (sane_log L -> Forall (in32 (1, 7)) r)) (concat outs)).
  { assert (W : forall w, In w (windows 400 160 (concat ps)) -> exists r b, fbank_process (ieee L) fb [] w = Ok ([r], b) /\
      List.length r = 40%nat /\ (sane_log L -> Forall (in32 (1, 7)) r)) by (intros w Hw; now apply (window_features (concat ps))).
    clear Er. induction Fr as [|w r ws rs (b0 & Hr) Fr IH]; constructor.
    - destruct (W w (or_introl eq_refl)) as (r' & b' & Er' & Lr & Br). rewrite Hr in Er'. injection Er' as <- <-. auto.
    - apply IH. intros w' Hw'. apply W. now right. }
  split; [|intros HL]; (eapply Forall_impl; [|exact G]); cbv beta; intros r (H1 & H2); auto.
Qed.
End Stream.

Lemma whole_sample : forall L x, - 2 ^ 31 <= x <= 2 ^ 31 -> sample (f_int (ieee L) x).
Proof.
  intros L x Hx. set (S := 2200). set (top := 2 ^ 3224).
  assert (HS : 2200 <= S) by (unfold S; lia). assert (Htop : 2 ^ (1024 + S) <= top) by (apply Z.le_refl). clearbody S top.
  destruct (count_val S top HS L x) as (_ & Kx). pose proof (pow_pos S ltac:(lia)) as PS.
  apply (key_in32 S top HS Htop 31 _ _ ltac:(lia) Kx).
  apply (ns_abs 24 128 ltac:(lia) ltac:(lia) S top ltac:(unfold emin; lia) ltac:(pose proof (big S top HS); lia)); [|apply (pow32 S top HS); lia].
  rewrite Z.pow_add_r by lia. rewrite Z.abs_mul, (Z.abs_eq (2 ^ S)) by lia. apply Z.mul_le_mono_nonneg_r; lia.
Qed.
