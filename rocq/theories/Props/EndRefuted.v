(** Audio for which the program prints what was not said (C86, C90, C96). *)
From Coq Require Import ZArith Reals String List.
From Verif.Base Require Import Prelude.
From Verif.Spec Require Import AudioSpec PcmSpec TextSpec NnetSpec FbankSpec DecoderSpec SttSpec TotalSpec SessionSpec LibmSpec ValueSpec LoadingSpec ProgramSpec EndSpec.
From Verif.Model Require Import Util Arith Pcm Fbank Srfft FbankInit Pool Fst Decoder Stt Main Loading Ieee IeeeFbank.
From Verif.Proof Require EndRefuted EndCases MelCloseCases IeeeCases FiniteCases.
Import ListNotations.
Open Scope Z_scope.

(** The condition on collections of [files_print_words_partial] is needed: a model
    in files and a file with 22 frames of audio that meet all the others, for which
    the program prints "what what", the words of no path. "so" was lost, and its
    place given to another word. *)
Theorem files_print_words_refuted : forall M, libm M -> close_logf M -> forall junk junk_int unknown why lm_fuel header_error,
  let O := ieee FiniteCases.rough in let X := ieee_wide in let tenth := IeeeCases.tenth 1 in
  let m := EndRefuted.model14 in let files := EndRefuted.files14 in let hclg := EndRefuted.hclg14 in
  let blocks := EndCases.blocks11 in let states := EndRefuted.states14 in
  stored O EndCases.bits32 files hclg (lit "d/m") m /\ network_fits m blocks /\
  model_words O EndCases.bits32 lm_fuel m None (fun _ => True) /\
  files (lit "u.wav") = Some (wav 16 7556 7520 EndRefuted.audio14) /\ wav_sizes 16 7556 7520 /\ byte_list EndRefuted.audio14 /\
  AudioSpec.decodes 2 EndRefuted.audio14 EndRefuted.samples14 [] /\
  exists rc rows,
    made_of O EndCases.bits32 (ieee_trig M) (ieee_init M) junk junk_int lm_fuel m rc /\
    rows_of O rc (left_context blocks) (right_context blocks) (map (f_int O) EndRefuted.samples14) rows /\
    (let cfg := utt_config O tenth rc in
     run_fits O X cfg None (fun _ => True) rows states /\ lively cfg states /\ finite_costs O X cfg None rows /\
     brief O X cfg None rows /\ ends cfg states /\ listed m states) /\
    (forall s c ws, path O X (m_graph m) (m_tid2pdf m) tenth None (rev rows) s c ws -> ws <> [7; 7]) /\
    forall fuel, (50 <= fuel)%nat ->
    run_main O X tenth fuel files
      (stt_load O (ieee_trig M) (ieee_init M) junk junk_int EndCases.bits32 unknown files hclg why lm_fuel) header_error
      [lit "d/m"; lit "u.wav"] = Ok (lit "what what" ++ [10], 0).
Proof. exact EndRefuted.refuted14. Qed.
Print Assumptions files_print_words_refuted.

Example files_print_words_refuted_case : libm MelCloseCases.fine_trig /\ close_logf MelCloseCases.fine_trig.
Proof. exact (conj MelCloseCases.fine_libm MelCloseCases.fine_close). Qed.
