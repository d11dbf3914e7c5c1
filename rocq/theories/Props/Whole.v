(** Programs all of whose inputs, the decoding graph included, are files, with
    models that have been checked (C112). *)
From Coq Require Import ZArith String List.
From Verif.Base Require Import Prelude.
From Verif.Spec Require Import AudioSpec AmSpec PcmSpec TextSpec NnetSpec FbankSpec FstSpec DecoderSpec SttSpec TotalSpec SessionSpec LibmSpec ValueSpec LoadingSpec ConstFstSpec GraphModelSpec ProgramSpec EndSpec ListSpec CommandSpec PlainSpec ExpSpec LmPlainSpec CheckedSpec CloseSpec.
From Verif.Model Require Import Util Arith Pcm Fbank Srfft FbankInit Nnet Pool Fst ConstFst Decoder Stt Main Loading Ieee IeeeFbank.
From Verif.Proof Require Import Whole.
From Verif.Proof Require IeeeCases EndCases TotalCases ListCases ExpCases CheckedCases ConstFstCases WholeCases WholePrint.
Import ListNotations.
Open Scope Z_scope.

(** One recording. *)
Theorem whole_prints : forall lib M junk junk_int junk_char room tenth of_word unknown files why lm_fuel header_error fn m0 blocks k ls,
  let O := ieee lib in let X := ieee_wide in
  let m := with_graph of_word m0 in let hclg := graph_read junk_char room of_word files in
  libm M -> close_logf M -> sane_log lib -> sane_exp lib ->
  stored_whole O of_word files room fn m0 -> checked_model lib of_word lm_fuel tenth m blocks k ls ->
  exists wm, weights_of O of_word m wm /\
  forall input content, ends_in input (lit ".wav") -> files input = Some content -> short_wav m k content ->
  exists rc fuel0 hyp, made_of O of_word (ieee_trig M) (ieee_init M) junk junk_int lm_fuel m rc /\
    heard O X tenth m wm blocks rc content hyp /\
    forall fuel, (fuel0 <= fuel)%nat ->
      run_main O X tenth fuel files
        (stt_load O (ieee_trig M) (ieee_init M) junk junk_int of_word unknown files hclg why lm_fuel) header_error [fn; input]
      = Ok (hyp ++ [10], 0).
Proof. exact whole_file. Qed.
Print Assumptions whole_prints.

(** A list of recordings: one line for each, in their order. *)
Theorem whole_list_prints : forall lib M junk junk_int junk_char room tenth of_word unknown files why lm_fuel header_error fn m0 blocks k ls,
  let O := ieee lib in let X := ieee_wide in
  let m := with_graph of_word m0 in let hclg := graph_read junk_char room of_word files in
  libm M -> close_logf M -> sane_log lib -> sane_exp lib ->
  stored_whole O of_word files room fn m0 -> checked_model lib of_word lm_fuel tenth m blocks k ls ->
  exists rc wm, made_of O of_word (ieee_trig M) (ieee_init M) junk junk_int lm_fuel m rc /\ weights_of O of_word m wm /\
  forall input entries,
  ~ ends_in input (lit ".wav") -> 4 <= lenZ input -> files input = Some (list_file entries) -> Forall entry_ok entries ->
  Forall (fun e => exists content, files (snd e) = Some content /\ short_wav m k content) entries ->
  exists fuel0 hyps,
    Forall2 (fun e hyp => exists content, files (snd e) = Some content /\ heard O X tenth m wm blocks rc content hyp) entries hyps /\
    forall fuel, (fuel0 <= fuel)%nat ->
      run_main O X tenth fuel files
        (stt_load O (ieee_trig M) (ieee_init M) junk junk_int of_word unknown files hclg why lm_fuel) header_error [fn; input]
      = Ok (printed entries hyps, 0).
Proof. exact whole_list. Qed.
Print Assumptions whole_list_prints.

(** Recordings whose costs stay close together (C111): the words of a cheapest path. *)
Theorem whole_best_prints : forall lib M junk junk_int junk_char room tenth of_word unknown files why lm_fuel header_error fn m0 blocks k ls,
  let O := ieee lib in let X := ieee_wide in
  let m := with_graph of_word m0 in let hclg := graph_read junk_char room of_word files in
  libm M -> close_logf M -> sane_log lib -> sane_exp lib ->
  stored_whole O of_word files room fn m0 -> checked_model lib of_word lm_fuel tenth m blocks k ls ->
  exists rc wm, made_of O of_word (ieee_trig M) (ieee_init M) junk junk_int lm_fuel m rc /\ weights_of O of_word m wm /\
  forall input content, ends_in input (lit ".wav") -> files input = Some content ->
  short_wav m k content -> close_wav lib tenth wm blocks rc content ->
  exists fuel0 hyp, heard_best lib tenth m wm blocks rc content hyp /\
    forall fuel, (fuel0 <= fuel)%nat ->
      run_main O X tenth fuel files
        (stt_load O (ieee_trig M) (ieee_init M) junk junk_int of_word unknown files hclg why lm_fuel) header_error [fn; input]
      = Ok (hyp ++ [10], 0).
Proof. exact whole_best_file. Qed.
Print Assumptions whole_best_prints.

Theorem whole_best_list_prints : forall lib M junk junk_int junk_char room tenth of_word unknown files why lm_fuel header_error fn m0 blocks k ls,
  let O := ieee lib in let X := ieee_wide in
  let m := with_graph of_word m0 in let hclg := graph_read junk_char room of_word files in
  libm M -> close_logf M -> sane_log lib -> sane_exp lib ->
  stored_whole O of_word files room fn m0 -> checked_model lib of_word lm_fuel tenth m blocks k ls ->
  exists rc wm, made_of O of_word (ieee_trig M) (ieee_init M) junk junk_int lm_fuel m rc /\ weights_of O of_word m wm /\
  forall input entries,
  ~ ends_in input (lit ".wav") -> 4 <= lenZ input -> files input = Some (list_file entries) -> Forall entry_ok entries ->
  Forall (fun e => exists content, files (snd e) = Some content /\ short_wav m k content /\ close_wav lib tenth wm blocks rc content) entries ->
  exists fuel0 hyps,
    Forall2 (fun e hyp => exists content, files (snd e) = Some content /\ heard_best lib tenth m wm blocks rc content hyp) entries hyps /\
    forall fuel, (fuel0 <= fuel)%nat ->
      run_main O X tenth fuel files
        (stt_load O (ieee_trig M) (ieee_init M) junk junk_int of_word unknown files hclg why lm_fuel) header_error [fn; input]
      = Ok (printed entries hyps, 0).
Proof. exact whole_best_list. Qed.
Print Assumptions whole_best_list_prints.

(** A model with the words "so" and "what" and a language model, every part in a
    file, and a list of three lines. *)
Example whole_case :
  sane_log ExpCases.loud /\ sane_exp ExpCases.loud /\
  stored_whole (ieee ExpCases.loud) EndCases.bits32 WholeCases.files21 ConstFstCases.plenty (lit "d/m") WholeCases.model21 /\
  (forall lm_fuel, (4 <= lm_fuel)%nat -> checked_model ExpCases.loud EndCases.bits32 lm_fuel (IeeeCases.tenth 1)
     (with_graph EndCases.bits32 WholeCases.model21) (ExpCases.blocks17 ExpCases.mild_word) 1 ExpCases.before17) /\
  (~ ends_in (lit "l.scp") (lit ".wav") /\ 4 <= lenZ (lit "l.scp") /\
   WholeCases.files21 (lit "l.scp") = Some (list_file CheckedCases.entries19) /\ Forall entry_ok CheckedCases.entries19 /\
   Forall (fun e => exists content, WholeCases.files21 (snd e) = Some content /\
     short_wav (with_graph EndCases.bits32 WholeCases.model21) 1 content) CheckedCases.entries19).
Proof.
  exact (conj ExpCases.loud_log (conj ExpCases.loud_sane (conj WholeCases.stored21 (conj WholeCases.checked21 WholeCases.list21)))).
Qed.

(** The same without a language model, with recordings of three frames and one
    frame whose costs stay close together: what is printed for them is known. *)
Example whole_best_case :
  stored_whole (ieee ExpCases.loud) EndCases.bits32 WholeCases.files22 ConstFstCases.plenty (lit "d/m") WholeCases.model22 /\
  (forall lm_fuel, checked_model ExpCases.loud EndCases.bits32 lm_fuel (IeeeCases.tenth 1)
     (with_graph EndCases.bits32 WholeCases.model22) (ExpCases.blocks17 ExpCases.mild_word) 1 ExpCases.before17) /\
  (~ ends_in (lit "l.scp") (lit ".wav") /\ 4 <= lenZ (lit "l.scp") /\
   WholeCases.files22 (lit "l.scp") = Some (list_file ListCases.entries13) /\ Forall entry_ok ListCases.entries13 /\
   forall M junk junk_int lm_fuel rc wm, libm M ->
   made_of (ieee ExpCases.loud) EndCases.bits32 (ieee_trig M) (ieee_init M) junk junk_int lm_fuel (with_graph EndCases.bits32 WholeCases.model22) rc ->
   weights_of (ieee ExpCases.loud) EndCases.bits32 (with_graph EndCases.bits32 WholeCases.model22) wm ->
   Forall (fun e => exists content, WholeCases.files22 (snd e) = Some content /\
     short_wav (with_graph EndCases.bits32 WholeCases.model22) 1 content /\
     close_wav ExpCases.loud (IeeeCases.tenth 1) wm (ExpCases.blocks17 ExpCases.mild_word) rc content) ListCases.entries13).
Proof. exact (conj WholeCases.stored22 (conj WholeCases.checked22 WholeCases.list22)). Qed.

Theorem whole_best_prints_here : forall M junk junk_int junk_char unknown why lm_fuel header_error, libm M -> close_logf M ->
  exists fuel0, forall fuel, (fuel0 <= fuel)%nat ->
    run_main (ieee ExpCases.loud) ieee_wide (IeeeCases.tenth 1) fuel WholeCases.files22
      (stt_load (ieee ExpCases.loud) (ieee_trig M) (ieee_init M) junk junk_int EndCases.bits32 unknown WholeCases.files22
         (graph_read junk_char ConstFstCases.plenty EndCases.bits32 WholeCases.files22) why lm_fuel)
      header_error [lit "d/m"; lit "l.scp"]
    = Ok (lit "v1 so what" ++ [10] ++ lit "v2 so what" ++ [10], 0).
Proof. exact WholePrint.prints22. Qed.
Print Assumptions whole_best_prints_here.
