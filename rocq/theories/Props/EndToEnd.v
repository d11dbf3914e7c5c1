(** From the files of a model and of audio to what the program prints (C86). *)
From Coq Require Import ZArith String List.
From Verif.Base Require Import Prelude.
From Verif.Spec Require Import AudioSpec PcmSpec TextSpec NnetSpec DecoderSpec SttSpec TotalSpec SessionSpec LibmSpec LoadingSpec ProgramSpec EndSpec.
From Verif.Model Require Import Util Arith Fbank Srfft FbankInit Pool Fst Decoder Stt Main Loading Ieee IeeeFbank.
From Verif.Proof Require Import TotalCases FiniteCases EndToEnd EndCases.
From Verif.Proof Require IeeeCases.
Import ListNotations.
Open Scope Z_scope.

(** A model is stored under a configuration file and its network fits; the
    audio is a mono 16 kHz WAV file. Then the program loads the model, and if
    decoding stays within its limits on the log probabilities of the audio, it
    prints the words of a path through the graph over these, in order, separated
    by single spaces, or an empty line, and returns 0.
    Full statement: without [run_safe] (see C45) and without the condition that
    the feature extractor can be constructed with this [logf]. *)
Theorem files_to_text_partial : forall lib M junk junk_int tenth of_word unknown files hclg why lm_fuel header_error fn m blocks fb,
  let O := ieee lib in let X := ieee_wide in
  libm M -> fbank_new O (ieee_trig M) (ieee_init M) junk junk_int = Ok fb ->
  stored O of_word files hclg fn m -> network_fits m blocks ->
  forall wm good, model_words O of_word lm_fuel m wm good ->
  forall input bits chunk size data xs rest,
  ends_in input (lit ".wav") -> files input = Some (wav bits chunk size data) -> wav_sizes bits chunk size -> byte_list data ->
  AudioSpec.decodes (Z.to_nat (bits / 8)) data xs rest ->
  exists rc rows,
    made_of O of_word (ieee_trig M) (ieee_init M) junk junk_int lm_fuel m rc /\
    rows_of O rc (left_context blocks) (right_context blocks) (map (f_int O) xs) rows /\
  forall states,
  let cfg := utt_config O tenth rc in
  run_fits O X cfg wm good rows states -> (forall fuel, run_safe O X cfg fuel (rc_cache rc) rows) ->
  lively cfg states -> finite_costs O X cfg wm rows -> brief O X cfg wm rows -> ends cfg states -> listed m states ->
  exists fuel0 words names,
    Forall2 (fun w name => In (name, w) (m_words m)) words names /\
    (words = [] \/ exists s c total,
       path O X (m_graph m) (m_tid2pdf m) tenth wm (rev rows) s c words /\
       ending X (m_graph m) wm true s c total /\ x_is_inf X total = false) /\
    forall fuel, (fuel0 <= fuel)%nat ->
      (exists dec weight, DecoderSpec.decodes O X cfg collector fuel (rc_cache rc) rows dec /\
         best_path O X cfg (end_of_stream dec) = Ok (rev words, weight)) /\
      run_main O X tenth fuel files
        (stt_load O (ieee_trig M) (ieee_init M) junk junk_int of_word unknown files hclg why lm_fuel) header_error [fn; input]
      = Ok (join [32] names ++ [10], 0).
Proof. exact files_text. Qed.
Print Assumptions files_to_text_partial.

(** A model of six files, one with a network of 240 weights that looks at three
    frames; a WAV file of 560 samples. *)
Example files_to_text_case : forall junk junk_int unknown why lm_fuel header_error,
  stored (ieee rough) bits32 files11 hclg11 (lit "d/m") model11 /\ network_fits model11 blocks11 /\
  exists fuel0, forall fuel, (fuel0 <= fuel)%nat ->
  run_main (ieee rough) ieee_wide (IeeeCases.tenth 1) fuel files11
    (stt_load (ieee rough) (ieee_trig rough_trig) (ieee_init rough_trig) junk junk_int bits32 unknown files11 hclg11 why lm_fuel) header_error
    [lit "d/m"; lit "u.wav"] = Ok (lit "so what" ++ [10], 0).
Proof.
  exact (fun junk junk_int unknown why lm_fuel header_error =>
    conj stored11 (conj fits11 (printed11 junk junk_int unknown why lm_fuel header_error))).
Qed.
