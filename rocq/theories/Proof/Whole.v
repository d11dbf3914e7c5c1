(** Checked models all of whose parts, the graph included, are in files. *)
From Coq Require Import ZArith String List.
From Verif.Base Require Import Prelude.
From Verif.Spec Require Import AudioSpec AmSpec PcmSpec TextSpec NnetSpec FbankSpec FstSpec DecoderSpec SttSpec TotalSpec SessionSpec LibmSpec ValueSpec LoadingSpec ConstFstSpec GraphModelSpec ProgramSpec EndSpec ListSpec CommandSpec PlainSpec ExpSpec LmPlainSpec CheckedSpec CloseSpec.
From Verif.Model Require Import Util Arith Pcm Fbank Srfft FbankInit Nnet Pool Fst ConstFst Decoder Stt Main Loading Ieee IeeeFbank.
From Verif.Proof Require Checked CloseChecked ConstFstCases.
Import ListNotations.
Open Scope Z_scope.

Lemma whole_file : forall lib M junk junk_int junk_char room tenth of_word unknown files why lm_fuel header_error fn m0 blocks k ls,
  let O := ieee lib in let X := ieee_wide in
  let m := with_graph of_word m0 in let hclg := graph_read junk_char room of_word files in
  libm M -> close_logf M -> sane_log lib -> sane_exp lib ->
  stored_whole O of_word files room fn m0 -> checked_model lib of_word lm_fuel tenth m blocks k ls ->
  exists wm, weights_of O of_word m wm /\
  forall input content, ends_in input (lit ".wav") -> files input = Some content -> short_wav m k content ->
  exists rc fuel0 hyp, made_of O of_word (ieee_trig M) (ieee_init M) junk junk_int lm_fuel m rc /\
    heard O X tenth m wm blocks rc content hyp /\
    forall fuel, (fuel0 <= fuel)%nat ->
      run_main O X tenth fuel files
        (stt_load O (ieee_trig M) (ieee_init M) junk junk_int of_word unknown files hclg why lm_fuel) header_error [fn; input]
      = Ok (hyp ++ [10], 0).
Proof.
  intros lib M junk junk_int junk_char room tenth of_word unknown files why lm_fuel header_error fn m0 blocks k ls O X m hclg HM HC Slg Se St Cm.
  exact (Checked.checked_file lib M junk junk_int tenth of_word unknown files hclg why lm_fuel header_error fn m blocks k ls HM HC Slg Se
    (ConstFstCases.whole_stored _ O of_word junk_char files room fn m0 St) Cm).
Qed.

Lemma whole_list : forall lib M junk junk_int junk_char room tenth of_word unknown files why lm_fuel header_error fn m0 blocks k ls,
  let O := ieee lib in let X := ieee_wide in
  let m := with_graph of_word m0 in let hclg := graph_read junk_char room of_word files in
  libm M -> close_logf M -> sane_log lib -> sane_exp lib ->
  stored_whole O of_word files room fn m0 -> checked_model lib of_word lm_fuel tenth m blocks k ls ->
  exists rc wm, made_of O of_word (ieee_trig M) (ieee_init M) junk junk_int lm_fuel m rc /\ weights_of O of_word m wm /\
  forall input entries,
  ~ ends_in input (lit ".wav") -> 4 <= lenZ input -> files input = Some (list_file entries) -> Forall entry_ok entries ->
  Forall (fun e => exists content, files (snd e) = Some content /\ short_wav m k content) entries ->
  exists fuel0 hyps,
    Forall2 (fun e hyp => exists content, files (snd e) = Some content /\ heard O X tenth m wm blocks rc content hyp) entries hyps /\
    forall fuel, (fuel0 <= fuel)%nat ->
      run_main O X tenth fuel files
        (stt_load O (ieee_trig M) (ieee_init M) junk junk_int of_word unknown files hclg why lm_fuel) header_error [fn; input]
      = Ok (printed entries hyps, 0).
Proof.
  intros lib M junk junk_int junk_char room tenth of_word unknown files why lm_fuel header_error fn m0 blocks k ls O X m hclg HM HC Slg Se St Cm.
  exact (Checked.checked_list lib M junk junk_int tenth of_word unknown files hclg why lm_fuel header_error fn m blocks k ls HM HC Slg Se
    (ConstFstCases.whole_stored _ O of_word junk_char files room fn m0 St) Cm).
Qed.

Lemma whole_best_file : forall lib M junk junk_int junk_char room tenth of_word unknown files why lm_fuel header_error fn m0 blocks k ls,
  let O := ieee lib in let X := ieee_wide in
  let m := with_graph of_word m0 in let hclg := graph_read junk_char room of_word files in
  libm M -> close_logf M -> sane_log lib -> sane_exp lib ->
  stored_whole O of_word files room fn m0 -> checked_model lib of_word lm_fuel tenth m blocks k ls ->
  exists rc wm, made_of O of_word (ieee_trig M) (ieee_init M) junk junk_int lm_fuel m rc /\ weights_of O of_word m wm /\
  forall input content, ends_in input (lit ".wav") -> files input = Some content ->
  short_wav m k content -> close_wav lib tenth wm blocks rc content ->
  exists fuel0 hyp, heard_best lib tenth m wm blocks rc content hyp /\
    forall fuel, (fuel0 <= fuel)%nat ->
      run_main O X tenth fuel files
        (stt_load O (ieee_trig M) (ieee_init M) junk junk_int of_word unknown files hclg why lm_fuel) header_error [fn; input]
      = Ok (hyp ++ [10], 0).
Proof.
  intros lib M junk junk_int junk_char room tenth of_word unknown files why lm_fuel header_error fn m0 blocks k ls O X m hclg HM HC Slg Se St Cm.
  exact (CloseChecked.checked_best_file lib M junk junk_int tenth of_word unknown files hclg why lm_fuel header_error fn m blocks k ls HM HC Slg Se
    (ConstFstCases.whole_stored _ O of_word junk_char files room fn m0 St) Cm).
Qed.

Lemma whole_best_list : forall lib M junk junk_int junk_char room tenth of_word unknown files why lm_fuel header_error fn m0 blocks k ls,
  let O := ieee lib in let X := ieee_wide in
  let m := with_graph of_word m0 in let hclg := graph_read junk_char room of_word files in
  libm M -> close_logf M -> sane_log lib -> sane_exp lib ->
  stored_whole O of_word files room fn m0 -> checked_model lib of_word lm_fuel tenth m blocks k ls ->
  exists rc wm, made_of O of_word (ieee_trig M) (ieee_init M) junk junk_int lm_fuel m rc /\ weights_of O of_word m wm /\
  forall input entries,
  ~ ends_in input (lit ".wav") -> 4 <= lenZ input -> files input = Some (list_file entries) -> Forall entry_ok entries ->
  Forall (fun e => exists content, files (snd e) = Some content /\ short_wav m k content /\ close_wav lib tenth wm blocks rc content) entries ->
  exists fuel0 hyps,
    Forall2 (fun e hyp => exists content, files (snd e) = Some content /\ heard_best lib tenth m wm blocks rc content hyp) entries hyps /\
    forall fuel, (fuel0 <= fuel)%nat ->
      run_main O X tenth fuel files
        (stt_load O (ieee_trig M) (ieee_init M) junk junk_int of_word unknown files hclg why lm_fuel) header_error [fn; input]
      = Ok (printed entries hyps, 0).
Proof.
  intros lib M junk junk_int junk_char room tenth of_word unknown files why lm_fuel header_error fn m0 blocks k ls O X m hclg HM HC Slg Se St Cm.
  exact (CloseChecked.checked_best_list lib M junk junk_int tenth of_word unknown files hclg why lm_fuel header_error fn m blocks k ls HM HC Slg Se
    (ConstFstCases.whole_stored _ O of_word junk_char files room fn m0 St) Cm).
Qed.

