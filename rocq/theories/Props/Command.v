(** Recognizers of commands (C105). [run_safe], which other theorems ask for, is
    always given when paths have few words. *)
From Coq Require Import ZArith String List.
From Verif.Base Require Import Prelude.
From Verif.Spec Require Import AudioSpec AmSpec PcmSpec TextSpec NnetSpec FbankSpec DecoderSpec SttSpec TotalSpec SessionSpec LibmSpec ValueSpec LoadingSpec ProgramSpec EndSpec CommandSpec.
From Verif.Model Require Import Util Arith Pcm Fbank Srfft FbankInit Pool Fst Decoder Stt Main Loading Ieee IeeeFbank.
From Verif.Proof Require Import QOps.
From Verif.Proof Require Command CommandUse IeeeCases TotalCases FiniteCases EndCases MelCloseCases DecoderCases.
Import ListNotations.
Open Scope Z_scope.

(** No path over 21, 41, ... frames with two words: collections free nothing that
    is in use. *)
Theorem slow_words_safe : forall F D C (O : fops F) (X : xops F D) (cfg : config F C) wm good,
  lm_implements (c_lm cfg) wm good -> forall fuel cache frames, good cache -> slow_words O X cfg wm frames ->
  run_safe O X cfg fuel cache frames.
Proof. exact @Proof.Command.slow_safe. Qed.
Print Assumptions slow_words_safe.

(** That is so for up to 20 frames; for up to 40, if the paths over 21 have one word
    at most; and for any number, if the graph has no walk with two words. *)
Theorem slow_words_when : forall F D C (O : fops F) (X : xops F D) (cfg : config F C) wm frames,
  (lenZ frames <= 20 -> slow_words O X cfg wm frames) /\
  (lenZ frames <= 40 ->
   (forall later fs s c ws, rev frames = later ++ fs -> lenZ fs = 21 ->
      path O X (c_graph cfg) (c_pdf cfg) (c_scale cfg) wm fs s c ws -> lenZ ws <= 1) -> slow_words O X cfg wm frames) /\
  (one_word (c_graph cfg) -> slow_words O X cfg wm frames).
Proof.
  exact (fun F D C O X cfg wm frames =>
    conj (Proof.Command.few_slow O X cfg wm frames) (conj (Proof.Command.slow_40 O X cfg wm frames) (Proof.Command.one_slow O X cfg wm frames))).
Qed.
Print Assumptions slow_words_when.

(** The hypothesis of a decoder at any time: nothing, or the words of a path. *)
Theorem slow_hypothesis : forall F D C (O : fops F) (X : xops F D) (cfg : config F C) wm good,
  lm_implements (c_lm cfg) wm good -> strict (x_lt X) ->
  forall fuel cache frames d, good cache -> slow_words O X cfg wm frames -> decodes O X cfg collector fuel cache frames d ->
  forall (eos : bool) ws weight, best_path O X cfg (if eos then end_of_stream d else d) = Ok (ws, weight) ->
  ws = [] \/ exists s c, path O X (c_graph cfg) (c_pdf cfg) (c_scale cfg) wm (rev frames) s c (rev ws).
Proof. exact @Proof.CommandUse.slow_hypothesis. Qed.
Print Assumptions slow_hypothesis.

Theorem command_hypothesis : forall F D C (O : fops F) (X : xops F D) (cfg : config F C) wm good,
  lm_implements (c_lm cfg) wm good -> strict (x_lt X) -> one_word (c_graph cfg) ->
  forall fuel cache frames d, good cache -> decodes O X cfg collector fuel cache frames d ->
  forall (eos : bool) ws weight, best_path O X cfg (if eos then end_of_stream d else d) = Ok (ws, weight) ->
  ws = [] \/ exists w s c, ws = [w] /\ path O X (c_graph cfg) (c_pdf cfg) (c_scale cfg) wm (rev frames) s c [w].
Proof. exact @Proof.CommandUse.one_hypothesis. Qed.
Print Assumptions command_hypothesis.

(** A choice of two words and 45 frames: three collections. *)
Theorem command_case : let cfg := Proof.CommandUse.config12 in
  one_word (c_graph cfg) /\ lm_implements (c_lm cfg) None (fun _ => True) /\ strict (x_lt twide) /\
  exists d, decodes tops twide cfg collector 60 tt (repeat [Num (-1); Num (-3)] 45) d /\
    best_path tops twide cfg (end_of_stream d) = Ok ([7], Num 94).
Proof. exact Proof.CommandUse.case12. Qed.
Print Assumptions command_case.

(** Two words are too many: one of them is lost, and a word that no path has is
    reported. *)
Theorem two_words_refuted : let cfg := Proof.DecoderCases.config7 in
  (forall s ws, walk (c_graph cfg) s ws -> lenZ ws <= 2) /\
  exists d, decodes tops twide cfg collector 50 tt (repeat [Num 0] 21) d /\
  best_path tops twide cfg (end_of_stream d) = Ok ([7; -1], Num 0) /\
  (forall s c ws, path tops twide (c_graph cfg) (c_pdf cfg) (c_scale cfg) None (rev (repeat [Num 0] 21)) s c ws -> ~ In (-1) ws).
Proof. exact Proof.CommandUse.two7. Qed.
Print Assumptions two_words_refuted.

(** Sessions with audio of any length, in single precision, cut in any way. *)
Theorem command_session : forall lib M junk junk_int C tenth (rc : recognizer float32 C) wm good,
  let O := ieee lib in let X := ieee_wide in
  libm M -> fbank_new O (ieee_trig M) (ieee_init M) junk junk_int = Ok (rc_fbank rc) -> lm_implements (rc_lm rc) wm good ->
  one_word (rc_graph rc) ->
  forall L R c f xs stream rest,
  am_fits rc L R c 40 -> supported f ->
  AudioSpec.decodes (Z.to_nat (w_bits f / 8)) stream xs rest ->
  let cfg := utt_config O tenth rc in
  exists rows, rows_of O rc L R (map (f_int O) xs) rows /\
  forall states, good (rc_cache rc) -> run_fits O X cfg wm good rows states ->
  lively cfg states -> finite_costs O X cfg wm rows -> ends cfg states -> named rc states ->
  exists fuel0 words text, lenZ words <= 1 /\ spells (rc_symbols rc) words text /\
    (words = [] \/ exists s c, path O X (rc_graph rc) (rc_pdf rc) tenth wm (rev rows) s c words) /\
    forall fuel err, (fuel0 <= fuel)%nat ->
      exists u, utt_init O X tenth fuel err rc f = Ok (Some u, err) /\
      forall ps, Forall piece ps -> concat ps = stream ->
      exists ns ll, session O X tenth fuel err (Some u) ps = Ok (ns, text, ll) /\ total ns = lenZ xs.
Proof. exact Proof.CommandUse.one_session. Qed.
Print Assumptions command_session.

(** The program of C86 with files: it prints a word of a path, or an empty line. *)
Theorem command_prints : forall lib M junk junk_int tenth of_word unknown files hclg why lm_fuel header_error fn m blocks,
  let O := ieee lib in let X := ieee_wide in
  libm M -> close_logf M -> stored O of_word files hclg fn m -> network_fits m blocks -> one_word (m_graph m) ->
  forall wm good, model_words O of_word lm_fuel m wm good ->
  forall input bits chunk size data xs rest,
  ends_in input (lit ".wav") -> files input = Some (wav bits chunk size data) -> wav_sizes bits chunk size -> byte_list data ->
  AudioSpec.decodes (Z.to_nat (bits / 8)) data xs rest ->
  exists rc rows,
    made_of O of_word (ieee_trig M) (ieee_init M) junk junk_int lm_fuel m rc /\
    rows_of O rc (left_context blocks) (right_context blocks) (map (f_int O) xs) rows /\
  forall states,
  let cfg := utt_config O tenth rc in
  run_fits O X cfg wm good rows states -> lively cfg states -> finite_costs O X cfg wm rows -> ends cfg states -> listed m states ->
  exists fuel0 out,
    (out = [] \/ exists w s c total, In (out, w) (m_words m) /\
       path O X (m_graph m) (m_tid2pdf m) tenth wm (rev rows) s c [w] /\
       ending X (m_graph m) wm true s c total /\ x_is_inf X total = false) /\
    forall fuel, (fuel0 <= fuel)%nat ->
      run_main O X tenth fuel files
        (stt_load O (ieee_trig M) (ieee_init M) junk junk_int of_word unknown files hclg why lm_fuel) header_error [fn; input]
      = Ok (out ++ [10], 0).
Proof. exact Proof.CommandUse.one_printed. Qed.
Print Assumptions command_prints.

(** A model of six files and a WAV file. *)
Theorem command_prints_case : forall junk junk_int unknown why lm_fuel header_error,
  let M := Proof.MelCloseCases.fine_trig in let O := ieee Proof.FiniteCases.rough in
  let m := Proof.CommandUse.model13 in let hclg := Proof.CommandUse.hclg13 in let files := Proof.EndCases.files11 in
  libm M /\ close_logf M /\ stored O Proof.EndCases.bits32 files hclg (lit "d/m") m /\
  network_fits m Proof.EndCases.blocks11 /\ one_word (m_graph m) /\
  exists fuel0, forall fuel, (fuel0 <= fuel)%nat ->
    run_main O ieee_wide (Proof.IeeeCases.tenth 1) fuel files
      (stt_load O (ieee_trig M) (ieee_init M) junk junk_int Proof.EndCases.bits32 unknown files hclg why lm_fuel) header_error
      [lit "d/m"; lit "u.wav"] = Ok (lit "so" ++ [10], 0).
Proof.
  exact (fun junk junk_int unknown why lm_fuel header_error =>
    conj Proof.MelCloseCases.fine_libm (conj Proof.MelCloseCases.fine_close (conj Proof.CommandUse.stored13 (conj Proof.CommandUse.fits13
      (conj Proof.CommandUse.one13 (Proof.CommandUse.printed13 _ Proof.MelCloseCases.fine_libm Proof.MelCloseCases.fine_close junk junk_int unknown why lm_fuel header_error)))))).
Qed.
Print Assumptions command_prints_case.
