(** The feature extractor can be constructed (C87). *)
From Coq Require Import ZArith Reals String List.
From Verif.Base Require Import Prelude.
From Verif.Spec Require Import AudioSpec PcmSpec TextSpec NnetSpec FbankSpec DecoderSpec SttSpec TotalSpec SessionSpec LibmSpec ValueSpec LoadingSpec ProgramSpec EndSpec.
From Verif.Model Require Import Util Arith Fbank Srfft FbankInit Pool Fst Decoder Stt Main Loading Ieee IeeeFbank.
From Verif.Proof Require Import MelClose MelCloseCases EndToEnd FbankBound ExtractorUse.
Import ListNotations.
Open Scope Z_scope.

(** In single precision, with any logf that is within a thousandth of the
    logarithm between 1/2 and 16: construction of the feature extractor trips no
    assertion; every filter has its two lines. *)
Theorem extractor_constructed : forall L M, close_logf M ->
  forall junk junk_int, exists fb, fbank_new (ieee L) (ieee_trig M) (ieee_init M) junk junk_int = Ok fb.
Proof. exact extractor_built. Qed.
Print Assumptions extractor_constructed.

(** The coarse bounds of [libm] alone do not suffice: with some logf within them
    every construction trips an assertion. *)
Theorem extractor_needs_logf : exists M, libm M /\
  forall L junk junk_int, fbank_new (ieee L) (ieee_trig M) (ieee_init M) junk junk_int = Fault Assert.
Proof. exact (ex_intro _ flat_trig (conj flat_libm flat_fails)). Qed.
Print Assumptions extractor_needs_logf.

(** So the features of C78 exist without a condition on construction.
    Restricted to pieces below 536870000 samples, as there. *)
Theorem audio_has_features_partial : forall L M junk junk_int, libm M -> close_logf M ->
  exists fb, fbank_new (ieee L) (ieee_trig M) (ieee_init M) junk junk_int = Ok fb /\
  forall ps, Forall (fun p => p <> [] /\ lenZ p < 536870000) ps -> Forall sample (concat ps) ->
  exists outs b, fbank_run (ieee L) fb [] ps = Ok (outs, b) /\
    length (concat outs) = num_windows 400 160 (length (concat ps)) /\
    Forall (fun r => length r = 40%nat) (concat outs) /\
    (sane_log L -> Forall (Forall (in32 (1, 7))) (concat outs)).
Proof. exact built_features. Qed.
Print Assumptions audio_has_features_partial.

(** And the program of C86 prints the words without that condition.
    Full statement: without [run_safe] (see C45). *)
Theorem files_print_words_partial : forall lib M junk junk_int tenth of_word unknown files hclg why lm_fuel header_error fn m blocks,
  let O := ieee lib in let X := ieee_wide in
  libm M -> close_logf M -> stored O of_word files hclg fn m -> network_fits m blocks ->
  forall wm good, model_words O of_word lm_fuel m wm good ->
  forall input bits chunk size data xs rest,
  ends_in input (lit ".wav") -> files input = Some (wav bits chunk size data) -> wav_sizes bits chunk size -> byte_list data ->
  AudioSpec.decodes (Z.to_nat (bits / 8)) data xs rest ->
  exists rc rows,
    made_of O of_word (ieee_trig M) (ieee_init M) junk junk_int lm_fuel m rc /\
    rows_of O rc (left_context blocks) (right_context blocks) (map (f_int O) xs) rows /\
  forall states,
  let cfg := utt_config O tenth rc in
  run_fits O X cfg wm good rows states -> (forall fuel, run_safe O X cfg fuel (rc_cache rc) rows) ->
  lively cfg states -> finite_costs O X cfg wm rows -> brief O X cfg wm rows -> ends cfg states -> listed m states ->
  exists fuel0 words names,
    Forall2 (fun w name => In (name, w) (m_words m)) words names /\
    (words = [] \/ exists s c total,
       path O X (m_graph m) (m_tid2pdf m) tenth wm (rev rows) s c words /\
       ending X (m_graph m) wm true s c total /\ x_is_inf X total = false) /\
    forall fuel, (fuel0 <= fuel)%nat ->
      run_main O X tenth fuel files
        (stt_load O (ieee_trig M) (ieee_init M) junk junk_int of_word unknown files hclg why lm_fuel) header_error [fn; input]
      = Ok (join [32] names ++ [10], 0).
Proof. exact built_text. Qed.
Print Assumptions files_print_words_partial.

(** A library whose logf is the logarithm rounded up to a multiple of 2 ^ -15. *)
Example extractor_case : libm fine_trig /\ close_logf fine_trig.
Proof. exact (conj fine_libm fine_close). Qed.
