(** Checked models and recordings whose costs stay close together. *)
From Coq Require Import ZArith String List Lia Bool.
From Verif.Base Require Import Prelude Lemmas.
From Verif.Model Require Import Util Arith Pcm Fbank Srfft FbankInit Nnet Am Pool Fst Decoder Stt Main Loading Ieee IeeeFbank.
From Verif.Spec Require Import AudioSpec AmSpec PcmSpec TextSpec NnetSpec FbankSpec FstSpec DecoderSpec SttSpec TotalSpec SessionSpec LibmSpec ValueSpec LoadingSpec ProgramSpec EndSpec ListSpec CommandSpec PlainSpec ExpSpec LmPlainSpec CheckedSpec CloseSpec.
From Verif.Proof Require Import Checked CloseUse.
Import ListNotations.
Open Scope Z_scope.

Lemma checked_best_list : forall lib M junk junk_int tenth of_word unknown files hclg why lm_fuel header_error fn m blocks k ls,
  let O := ieee lib in let X := ieee_wide in
  libm M -> close_logf M -> sane_log lib -> sane_exp lib ->
  stored O of_word files hclg fn m -> checked_model lib of_word lm_fuel tenth m blocks k ls ->
  exists rc wm, made_of O of_word (ieee_trig M) (ieee_init M) junk junk_int lm_fuel m rc /\ weights_of O of_word m wm /\
  forall input entries,
  ~ ends_in input (lit ".wav") -> 4 <= lenZ input -> files input = Some (list_file entries) -> Forall entry_ok entries ->
  Forall (fun e => exists content, files (snd e) = Some content /\ short_wav m k content /\ close_wav lib tenth wm blocks rc content) entries ->
  exists fuel0 hyps,
    Forall2 (fun e hyp => exists content, files (snd e) = Some content /\ heard_best lib tenth m wm blocks rc content hyp) entries hyps /\
    forall fuel, (fuel0 <= fuel)%nat ->
      run_main O X tenth fuel files
        (stt_load O (ieee_trig M) (ieee_init M) junk junk_int of_word unknown files hclg why lm_fuel) header_error [fn; input]
      = Ok (printed entries hyps, 0).
Proof.
  intros lib M junk junk_int tenth of_word unknown files hclg why lm_fuel header_error fn m blocks k ls O X HM HC Slg Se St Cm.
  destruct (weights lib tenth of_word lm_fuel m blocks k ls Cm) as (wm & good & Mw & Hw).
  destruct (best_list lib M junk junk_int tenth of_word unknown files hclg why lm_fuel header_error fn m blocks HM HC St (cm_network _ _ _ _ _ _ _ _ Cm)
    wm good Mw) as (rc & Hrc & H).
  exists rc, wm. split; [exact Hrc|]. split; [exact Hw|]. intros input entries A1 A2 A3 A4 A5. apply (H input entries A1 A2 A3 A4).
  eapply Forall_impl; [|exact A5]. intros e (content & E & Sw & Cw). exists content. split; [exact E|]. split; [|exact Cw].
  exact (short_decodable lib M junk junk_int tenth of_word lm_fuel m blocks k ls HM Slg Se Cm rc wm good content Hrc Mw Sw).
Qed.

Lemma checked_best_file : forall lib M junk junk_int tenth of_word unknown files hclg why lm_fuel header_error fn m blocks k ls,
  let O := ieee lib in let X := ieee_wide in
  libm M -> close_logf M -> sane_log lib -> sane_exp lib ->
  stored O of_word files hclg fn m -> checked_model lib of_word lm_fuel tenth m blocks k ls ->
  exists rc wm, made_of O of_word (ieee_trig M) (ieee_init M) junk junk_int lm_fuel m rc /\ weights_of O of_word m wm /\
  forall input content, ends_in input (lit ".wav") -> files input = Some content ->
  short_wav m k content -> close_wav lib tenth wm blocks rc content ->
  exists fuel0 hyp, heard_best lib tenth m wm blocks rc content hyp /\
    forall fuel, (fuel0 <= fuel)%nat ->
      run_main O X tenth fuel files
        (stt_load O (ieee_trig M) (ieee_init M) junk junk_int of_word unknown files hclg why lm_fuel) header_error [fn; input]
      = Ok (hyp ++ [10], 0).
Proof.
  intros lib M junk junk_int tenth of_word unknown files hclg why lm_fuel header_error fn m blocks k ls O X HM HC Slg Se St Cm.
  destruct (weights lib tenth of_word lm_fuel m blocks k ls Cm) as (wm & good & Mw & Hw).
  destruct (best_file lib M junk junk_int tenth of_word unknown files hclg why lm_fuel header_error fn m blocks HM HC St (cm_network _ _ _ _ _ _ _ _ Cm)
    wm good Mw) as (rc & Hrc & H).
  exists rc, wm. split; [exact Hrc|]. split; [exact Hw|]. intros input content A1 A2 Sw Cw. apply (H input content A1 A2); [|exact Cw].
  exact (short_decodable lib M junk junk_int tenth of_word lm_fuel m blocks k ls HM Slg Se Cm rc wm good content Hrc Mw Sw).
Qed.
