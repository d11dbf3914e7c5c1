(** From recordings to the characters that error rates are computed from (C115). *)
From Coq Require Import ZArith String List.
From Verif.Base Require Import Prelude.
From Verif.Spec Require Import AudioSpec AmSpec PcmSpec TextSpec NnetSpec FbankSpec FstSpec DecoderSpec SttSpec TotalSpec SessionSpec LibmSpec ValueSpec LoadingSpec ConstFstSpec GraphModelSpec ProgramSpec EndSpec ListSpec CommandSpec PlainSpec ExpSpec LmPlainSpec CheckedSpec CloseSpec CharTokSpec CharactersSpec.
From Verif.Model Require Import Util Arith Pcm Fbank Srfft FbankInit Nnet Pool Fst ConstFst Decoder Stt Main Loading Ieee IeeeFbank.
From Verif.Model Require CharTok.
From Verif.Proof Require Import Characters.
From Verif.Proof Require ExpCases EndCases IeeeCases ConstFstCases ListCases WholeCases.
Import ListNotations.
Open Scope Z_scope.

(** The program prints text for a list of recordings, and the script makes of it a
    line per recording: its name and the characters of the words of a path. *)
Theorem list_characters : forall lib M junk junk_int junk_char room tenth of_word unknown files why lm_fuel header_error fn m0 blocks k ls,
  let O := ieee lib in let X := ieee_wide in
  let m := with_graph of_word m0 in let hclg := graph_read junk_char room of_word files in
  libm M -> close_logf M -> sane_log lib -> sane_exp lib ->
  stored_whole O of_word files room fn m0 -> checked_model lib of_word lm_fuel tenth m blocks k ls ->
  (forall name w, In (name, w) (m_words m) -> exists u, utf8 u name /\ a_word u) ->
  exists rc wm, made_of O of_word (ieee_trig M) (ieee_init M) junk junk_int lm_fuel m rc /\ weights_of O of_word m wm /\
  forall input entries,
  ~ ends_in input (lit ".wav") -> 4 <= lenZ input -> files input = Some (list_file entries) -> Forall entry_ok entries ->
  Forall (fun e => exists content, files (snd e) = Some content /\ short_wav m k content) entries ->
  Forall (fun e : bytes * bytes => exists name, utf8 name (Datatypes.fst e) /\ a_word name) entries ->
  exists fuel0 lines out,
    Forall2 (line_for files (heard O X tenth m wm blocks rc)) entries lines /\ utf8 (file_of lines) out /\
    forall fuel, (fuel0 <= fuel)%nat -> exists text,
      run_main O X tenth fuel files
        (stt_load O (ieee_trig M) (ieee_init M) junk junk_int of_word unknown files hclg why lm_fuel) header_error [fn; input]
      = Ok (text, 0) /\ Model.CharTok.conv_file text = Some out.
Proof. exact whole_characters. Qed.
Print Assumptions list_characters.

(** Where costs stay close together (C111), of a cheapest path. *)
Theorem list_best_characters : forall lib M junk junk_int junk_char room tenth of_word unknown files why lm_fuel header_error fn m0 blocks k ls,
  let O := ieee lib in let X := ieee_wide in
  let m := with_graph of_word m0 in let hclg := graph_read junk_char room of_word files in
  libm M -> close_logf M -> sane_log lib -> sane_exp lib ->
  stored_whole O of_word files room fn m0 -> checked_model lib of_word lm_fuel tenth m blocks k ls ->
  (forall name w, In (name, w) (m_words m) -> exists u, utf8 u name /\ a_word u) ->
  exists rc wm, made_of O of_word (ieee_trig M) (ieee_init M) junk junk_int lm_fuel m rc /\ weights_of O of_word m wm /\
  forall input entries,
  ~ ends_in input (lit ".wav") -> 4 <= lenZ input -> files input = Some (list_file entries) -> Forall entry_ok entries ->
  Forall (fun e => exists content, files (snd e) = Some content /\ short_wav m k content /\ close_wav lib tenth wm blocks rc content) entries ->
  Forall (fun e : bytes * bytes => exists name, utf8 name (Datatypes.fst e) /\ a_word name) entries ->
  exists fuel0 lines out,
    Forall2 (line_for files (heard_best lib tenth m wm blocks rc)) entries lines /\ utf8 (file_of lines) out /\
    forall fuel, (fuel0 <= fuel)%nat -> exists text,
      run_main O X tenth fuel files
        (stt_load O (ieee_trig M) (ieee_init M) junk junk_int of_word unknown files hclg why lm_fuel) header_error [fn; input]
      = Ok (text, 0) /\ Model.CharTok.conv_file text = Some out.
Proof. exact best_characters. Qed.
Print Assumptions list_best_characters.

(** The model of C112 without a language model: its words and the names in its list
    are in UTF-8; the other hypotheses are met by [whole_best_case]. *)
Example characters_case :
  (forall name w, In (name, w) (m_words (with_graph EndCases.bits32 WholeCases.model22)) -> exists u, utf8 u name /\ a_word u) /\
  Forall (fun e : bytes * bytes => exists name, utf8 name (Datatypes.fst e) /\ a_word name) ListCases.entries13.
Proof. exact (conj words22 names22). Qed.

Theorem characters_here : forall M junk junk_int junk_char unknown why lm_fuel header_error, libm M -> close_logf M ->
  exists fuel0, forall fuel, (fuel0 <= fuel)%nat -> exists text,
    run_main (ieee ExpCases.loud) ieee_wide (IeeeCases.tenth 1) fuel WholeCases.files22
      (stt_load (ieee ExpCases.loud) (ieee_trig M) (ieee_init M) junk junk_int EndCases.bits32 unknown WholeCases.files22
         (graph_read junk_char ConstFstCases.plenty EndCases.bits32 WholeCases.files22) why lm_fuel)
      header_error [lit "d/m"; lit "l.scp"]
    = Ok (text, 0) /\
    Model.CharTok.conv_file text = Some (lit "v1 s o w h a t" ++ [10] ++ lit "v2 s o w h a t" ++ [10]).
Proof. exact characters22. Qed.
Print Assumptions characters_here.
