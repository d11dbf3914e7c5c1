(** Features of audio in single precision (C78). *)
From Coq Require Import ZArith List.
From Verif.Base Require Import Prelude.
From Verif.Spec Require Import AudioSpec AmSpec FbankSpec PcmSpec DecoderSpec SttSpec TotalSpec SessionSpec LibmSpec.
From Verif.Model Require Import Arith Vector Pcm Fbank Srfft FbankInit Am Pool Fst Decoder Stt Ieee IeeeFbank.
From Verif.Proof Require Import FbankBound TotalCases FiniteCases.
From Verif.Proof Require IeeeCases.
Import ListNotations.
Open Scope Z_scope.

(** Restricted to pieces below 536870000 samples, beyond which the buffer size
    overflows. Whatever finite samples of up to 2 ^ 31 a constructed feature extractor is
    given, and however they are cut into pieces: there is one row of 40 features
    per window, and no feature is a NaN or beyond 128. *)
Theorem audio_features_finite_partial : forall L M junk junk_int fb ps, libm M ->
  fbank_new (ieee L) (ieee_trig M) (ieee_init M) junk junk_int = Ok fb ->
  Forall (fun p => p <> [] /\ lenZ p < 536870000) ps -> Forall sample (concat ps) ->
  exists outs b, fbank_run (ieee L) fb [] ps = Ok (outs, b) /\
    length (concat outs) = num_windows 400 160 (length (concat ps)) /\
    Forall (fun r => length r = 40%nat) (concat outs) /\
    (sane_log L -> Forall (Forall (in32 (1, 7))) (concat outs)).
Proof. exact (fun L M junk junk_int fb ps HM E => finite_stream L M HM junk junk_int fb E ps). Qed.
Print Assumptions audio_features_finite_partial.

(** All audio of the supported formats consists of such samples. *)
Theorem audio_is_sampled : forall L f stream xs rest, supported f ->
  AudioSpec.decodes (Z.to_nat (w_bits f / 8)) stream xs rest -> Forall sample (map (f_int (ieee L)) xs).
Proof. exact audio_sampled. Qed.
Print Assumptions audio_is_sampled.

(** So a session with such an extractor does not fail in the extractor: what
    remains is asked of the acoustic model and of the graph. *)
Theorem audio_session_total : forall lib M junk junk_int C tenth (rc : recognizer float32 C) wm good,
  let O := ieee lib in let X := ieee_wide in
  libm M -> fbank_new O (ieee_trig M) (ieee_init M) junk junk_int = Ok (rc_fbank rc) -> lm_implements (rc_lm rc) wm good ->
  forall L R c f xs stream rest,
  am_fits rc L R c 40 -> supported f ->
  AudioSpec.decodes (Z.to_nat (w_bits f / 8)) stream xs rest ->
  let cfg := utt_config O tenth rc in
  exists rows, rows_of O rc L R (map (f_int O) xs) rows /\
  forall states, good (rc_cache rc) -> run_fits O X cfg wm good rows states ->
  (forall fuel, run_safe O X cfg fuel (rc_cache rc) rows) -> lively cfg states -> finite_costs O X cfg wm rows ->
  brief O X cfg wm rows -> ends cfg states -> named rc states ->
  exists fuel0 dec words weight text,
    best_path O X cfg (end_of_stream dec) = Ok (words, weight) /\ spells (rc_symbols rc) (rev words) text /\
    forall fuel err, (fuel0 <= fuel)%nat ->
      DecoderSpec.decodes O X cfg collector fuel (rc_cache rc) rows dec /\
      exists u, utt_init O X tenth fuel err rc f = Ok (Some u, err) /\
      forall ps, Forall piece ps -> concat ps = stream ->
      exists ns ll, session O X tenth fuel err (Some u) ps = Ok (ns, text, ll) /\ total ns = lenZ xs /\
        Forall (fun n => 0 <= n) ns /\
        (words <> [] -> ll = f_div O weight (f_int O (lenZ rows))).
Proof. exact session_audio. Qed.
Print Assumptions audio_session_total.

(** A library, though a poor one, and an extractor. *)
Example audio_features_case : forall junk junk_int, libm rough_trig /\ sane_log rough /\
  exists fb, fbank_new (ieee rough) (ieee_trig rough_trig) (ieee_init rough_trig) junk junk_int = Ok fb.
Proof. exact (fun junk junk_int => conj rough_libm (conj rough_sane (rough_extractor junk junk_int))). Qed.

Example audio_session_case : forall junk junk_int, exists fb,
  fbank_new (ieee rough) (ieee_trig rough_trig) (ieee_init rough_trig) junk junk_int = Ok fb /\
  exists fuel0, forall fuel, (fuel0 <= fuel)%nat -> forall err,
  exists u, utt_init (ieee rough) ieee_wide (IeeeCases.tenth 1) fuel err (rc9_on fb) (mk_format 1 16000 16) = Ok (Some u, err) /\
  forall ps, Forall piece ps -> concat ps = audio9 ->
  exists ns ll, session (ieee rough) ieee_wide (IeeeCases.tenth 1) fuel err (Some u) ps = Ok (ns, text9, ll) /\ total ns = 560.
Proof. exact rough_result. Qed.
