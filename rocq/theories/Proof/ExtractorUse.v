(** Features and text with an extractor that is constructed. *)
From Coq Require Import ZArith Reals String List.
From Verif.Base Require Import Prelude.
From Verif.Spec Require Import AudioSpec PcmSpec TextSpec NnetSpec FbankSpec DecoderSpec SttSpec TotalSpec SessionSpec LibmSpec ValueSpec LoadingSpec ProgramSpec EndSpec.
From Verif.Model Require Import Util Arith Fbank Srfft FbankInit Pool Fst Decoder Stt Main Loading Ieee IeeeFbank.
From Verif.Proof Require Import MelClose EndToEnd FbankBound.
Import ListNotations.
Open Scope Z_scope.

Lemma built_features : forall L M junk junk_int, libm M -> close_logf M ->
  exists fb, fbank_new (ieee L) (ieee_trig M) (ieee_init M) junk junk_int = Ok fb /\
  forall ps, Forall (fun p => p <> [] /\ lenZ p < 536870000) ps -> Forall sample (concat ps) ->
  exists outs b, fbank_run (ieee L) fb [] ps = Ok (outs, b) /\
    length (concat outs) = num_windows 400 160 (length (concat ps)) /\
    Forall (fun r => length r = 40%nat) (concat outs) /\
    (sane_log L -> Forall (Forall (in32 (1, 7))) (concat outs)).
Proof.
  intros L M junk junk_int HM HC. destruct (extractor_built L M HC junk junk_int) as (fb & E).
  exists fb. split; [exact E|]. exact (finite_stream L M HM junk junk_int fb E).
Qed.

Lemma built_text : forall lib M junk junk_int tenth of_word unknown files hclg why lm_fuel header_error fn m blocks,
  let O := ieee lib in let X := ieee_wide in
  libm M -> close_logf M -> stored O of_word files hclg fn m -> network_fits m blocks ->
  forall wm good, model_words O of_word lm_fuel m wm good ->
  forall input bits chunk size data xs rest,
  ends_in input (lit ".wav") -> files input = Some (wav bits chunk size data) -> wav_sizes bits chunk size -> byte_list data ->
  AudioSpec.decodes (Z.to_nat (bits / 8)) data xs rest ->
  exists rc rows,
    made_of O of_word (ieee_trig M) (ieee_init M) junk junk_int lm_fuel m rc /\
    rows_of O rc (left_context blocks) (right_context blocks) (map (f_int O) xs) rows /\
  forall states,
  let cfg := utt_config O tenth rc in
  run_fits O X cfg wm good rows states -> (forall fuel, run_safe O X cfg fuel (rc_cache rc) rows) ->
  lively cfg states -> finite_costs O X cfg wm rows -> brief O X cfg wm rows -> ends cfg states -> listed m states ->
  exists fuel0 words names,
    Forall2 (fun w name => In (name, w) (m_words m)) words names /\
    (words = [] \/ exists s c total,
       path O X (m_graph m) (m_tid2pdf m) tenth wm (rev rows) s c words /\
       ending X (m_graph m) wm true s c total /\ x_is_inf X total = false) /\
    forall fuel, (fuel0 <= fuel)%nat ->
      run_main O X tenth fuel files
        (stt_load O (ieee_trig M) (ieee_init M) junk junk_int of_word unknown files hclg why lm_fuel) header_error [fn; input]
      = Ok (join [32] names ++ [10], 0).
Proof.
  intros lib M junk junk_int tenth of_word unknown files hclg why lm_fuel header_error fn m blocks O X HM HC St Nf wm good Hw
    input bits chunk size data xs rest H1 H2 H3 H4 H5.
  destruct (extractor_built lib M HC junk junk_int) as (fb & E).
  destruct (files_text lib M junk junk_int tenth of_word unknown files hclg why lm_fuel header_error fn m blocks fb HM E St Nf wm good Hw
    input bits chunk size data xs rest H1 H2 H3 H4 H5) as (rc & rows & Hrc & Hrows & K).
  exists rc, rows. split; [exact Hrc|]. split; [exact Hrows|]. intros states cfg P1 P2 P3 P4 P5 P6 P7.
  destruct (K states P1 P2 P3 P4 P5 P6 P7) as (fuel0 & words & names & Q1 & Q2 & Q3).
  exists fuel0, words, names. split; [exact Q1|]. split; [exact Q2|]. intros fuel Hf. now apply Q3.
Qed.
