(** Sessions with a constructed feature extractor in IEEE 754 arithmetic, and a
    case. *)
From Coq Require Import ZArith String List Bool Lia Floats.SpecFloat.
From Verif.Base Require Import Prelude Lemmas.
From Verif.Spec Require Import AudioSpec AmSpec FbankSpec PcmSpec DecoderSpec SttSpec TotalSpec SessionSpec LibmSpec.
From Verif.Model Require Import Arith Vector Pcm Fbank Srfft FbankInit Am Pool Fst Decoder Stt Ieee IeeeFbank.
From Verif.Proof Require Import IeeeLaws IeeeCases FbankInit FbankBound TotalCases.
Import ListNotations.
Open Scope Z_scope.

Lemma pcm_samples : forall L n xs, (n <= 4)%nat -> Forall (fits n) xs -> Forall sample (map (f_int (ieee L)) xs).
Proof.
  intros L n xs Hn H. apply Forall_map. eapply Forall_impl; [|exact H]. intros x Hx. apply whole_sample. unfold fits in Hx.
  destruct n as [|[|[|[|[|n]]]]]; [| | | | |lia]; cbn in Hx |- *; lia.
Qed.

Lemma audio_features : forall L M junk junk_int C (rc : recognizer float32 C) n xs, libm M ->
  fbank_new (ieee L) (ieee_trig M) (ieee_init M) junk junk_int = Ok (rc_fbank rc) ->
  (n <= 4)%nat -> Forall (fits n) xs -> features_fit (ieee L) rc 40 (map (f_int (ieee L)) xs).
Proof.
  intros L M junk junk_int C rc n xs HM E Hn H w Hw.
  destruct (window_features L M HM junk junk_int (rc_fbank rc) E _ w (pcm_samples L n xs Hn H) Hw) as (r & b & Eb & Lr & _).
  exists r, b. split; [exact Eb|]. unfold lenZ. rewrite Lr. reflexivity.
Qed.

Lemma audio_sampled : forall L f stream xs rest, supported f ->
  AudioSpec.decodes (Z.to_nat (w_bits f / 8)) stream xs rest -> Forall sample (map (f_int (ieee L)) xs).
Proof.
  intros L f stream xs rest (_ & _ & W) (_ & H & _). apply (pcm_samples L (Z.to_nat (w_bits f / 8))); [|exact H].
  destruct W as [-> | [-> | ->]]; cbn; lia.
Qed.

Lemma session_audio : forall lib M junk junk_int C tenth (rc : recognizer float32 C) wm good,
  let O := ieee lib in let X := ieee_wide in
  libm M -> fbank_new O (ieee_trig M) (ieee_init M) junk junk_int = Ok (rc_fbank rc) -> lm_implements (rc_lm rc) wm good ->
  forall L R c f xs stream rest,
  am_fits rc L R c 40 -> supported f ->
  AudioSpec.decodes (Z.to_nat (w_bits f / 8)) stream xs rest ->
  let cfg := utt_config O tenth rc in
  exists rows, rows_of O rc L R (map (f_int O) xs) rows /\
  forall states, good (rc_cache rc) -> run_fits O X cfg wm good rows states ->
  (forall fuel, run_safe O X cfg fuel (rc_cache rc) rows) -> lively cfg states -> finite_costs O X cfg wm rows ->
  brief O X cfg wm rows -> ends cfg states -> named rc states ->
  exists fuel0 dec words weight text,
    best_path O X cfg (end_of_stream dec) = Ok (words, weight) /\ spells (rc_symbols rc) (rev words) text /\
    forall fuel err, (fuel0 <= fuel)%nat ->
      DecoderSpec.decodes O X cfg collector fuel (rc_cache rc) rows dec /\
      exists u, utt_init O X tenth fuel err rc f = Ok (Some u, err) /\
      forall ps, Forall piece ps -> concat ps = stream ->
      exists ns ll, session O X tenth fuel err (Some u) ps = Ok (ns, text, ll) /\ total ns = lenZ xs /\
        Forall (fun n => 0 <= n) ns /\
        (words <> [] -> ll = f_div O weight (f_int O (lenZ rows))).
Proof.
  intros lib M junk junk_int C tenth rc wm good O X HM E Hl L R c f xs stream rest Af Sf Dx cfg.
  apply (session_ieee lib C tenth rc wm good Hl L R c 40 f xs stream rest); auto.
  apply (audio_features lib M junk junk_int C rc (Z.to_nat (w_bits f / 8)) xs HM E).
  - destruct Sf as (_ & _ & [-> | [-> | ->]]); cbn; lia.
  - apply Dx.
Qed.

(** * A library *)

(** cos is 1, sin is 0, logf is x / 4 and log is x, cut off at the bounds;
    products of rows and columns are 0. *)
Definition one32 : float32 := f32 (num32 1 0).
Definition within32 (e : Z) (x : float32) : bool := SFleb (num32 (-1) e) (fl_val x) && SFleb (fl_val x) (num32 1 e).
Definition within64 (e : Z) (x : float64) : bool := SFleb (num64 (-1) e) (fl_val x) && SFleb (fl_val x) (num64 1 e).
Definition rough_trig : trig_library := mk_trig_library
  (fun _ => one32) (fun _ => f32 (S754_zero false)) (fun _ => f64 (S754_zero false))
  (fun x => let y := f32 (SFmul 24 128 (fl_val x) (num32 1 (-2))) in if within32 2 y then y else one32).
Definition rough : library := mk_library
  (fun x => x) (fun x => x) (fun x => if within64 7 x then x else f64 (num64 1 7)) (fun _ _ => f32 (S754_zero false)).

Lemma rough_libm : libm rough_trig.
Proof.
  constructor; intros x; cbn [lib_cos lib_sin lib_cos_wide lib_logf rough_trig].
  - intros _. split; vm_compute; reflexivity.
  - intros _. split; vm_compute; reflexivity.
  - intros _. split; vm_compute; reflexivity.
  - intros _. split; vm_compute; reflexivity.
  - intros _ _. set (y := f32 _). destruct (within32 2 y) eqn:E; [|split; vm_compute; reflexivity].
    apply andb_true_iff in E. exact E.
Qed.

Lemma rough_sane : sane_log rough.
Proof.
  intros x _ _. cbn [lib_log rough]. destruct (within64 7 x) eqn:E; [|split; vm_compute; reflexivity].
  apply andb_true_iff in E. exact E.
Qed.

Definition rough_inside (j a : Z) : bool :=
  inside (ieee rough) (ieee_init rough_trig) (bank_width (ieee rough))
    (bank_edge (ieee rough) (ieee_init rough_trig) j) (bank_edge (ieee rough) (ieee_init rough_trig) (j + 2)) a.
(** Filter [j] begins near (20 + 195 j) Hz; lines are 31.25 Hz apart. *)
Lemma rough_filters : forallb (fun j => let a := (20 + 195 * j) * 4 / 125 + 5 in rough_inside j a && rough_inside j (a + 1)) (seqZ 0 40) = true.
Proof. vm_compute. reflexivity. Qed.

Lemma rough_extractor : forall junk junk_int, exists fb,
  fbank_new (ieee rough) (ieee_trig rough_trig) (ieee_init rough_trig) junk junk_int = Ok fb.
Proof.
  intros junk junk_int. destruct (fbank_new_ok (ieee rough) (ieee_trig rough_trig) (ieee_init rough_trig) junk junk_int)
    as [(_ & N)|(fb & _ & E & _)]; [|eauto]. exfalso. apply N. intros j Hj.
  pose proof rough_filters as G. rewrite forallb_forall in G. specialize (G j ltac:(apply in_seqZ; lia)). cbv zeta in G.
  apply andb_true_iff in G as (G1 & G2). exists ((20 + 195 * j) * 4 / 125 + 5), ((20 + 195 * j) * 4 / 125 + 5 + 1).
  split; [|split; [|split; assumption]].
  - pose proof (Z.div_pos ((20 + 195 * j) * 4) 125). lia.
  - pose proof (Z.div_lt_upper_bound ((20 + 195 * j) * 4) 125 249). lia.
Qed.

Lemma rough_result : forall junk junk_int, exists fb,
  fbank_new (ieee rough) (ieee_trig rough_trig) (ieee_init rough_trig) junk junk_int = Ok fb /\
  exists fuel0, forall fuel, (fuel0 <= fuel)%nat -> forall err,
  exists u, utt_init (ieee rough) ieee_wide (tenth 1) fuel err (rc9_on fb) (mk_format 1 16000 16) = Ok (Some u, err) /\
  forall ps, Forall piece ps -> concat ps = audio9 ->
  exists ns ll, session (ieee rough) ieee_wide (tenth 1) fuel err (Some u) ps = Ok (ns, text9, ll) /\ total ns = 560.
Proof.
  intros junk junk_int. destruct (rough_extractor junk junk_int) as (fb & E). exists fb. split; [exact E|].
  apply (result9_on rough fb 40 ltac:(lia)).
  apply (audio_features rough rough_trig junk junk_int unit (rc9_on fb) 2 _ rough_libm E ltac:(lia)).
  apply Forall_forall. intros x J. apply repeat_spec in J. subst x. unfold fits. cbn. lia.
Qed.
