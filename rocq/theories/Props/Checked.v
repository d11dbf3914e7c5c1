(** Programs with models that have been checked (C110): conditions on the files of a
    model, under which every recording of limited length is transcribed. *)
From Coq Require Import ZArith String List.
From Verif.Base Require Import Prelude.
From Verif.Spec Require Import AudioSpec AmSpec PcmSpec TextSpec NnetSpec FbankSpec FstSpec DecoderSpec SttSpec TotalSpec SessionSpec LibmSpec ValueSpec LoadingSpec ProgramSpec EndSpec ListSpec CommandSpec PlainSpec ExpSpec LmPlainSpec CheckedSpec.
From Verif.Model Require Import Util Arith Pcm Fbank Srfft FbankInit Nnet Pool Fst Decoder Stt Main Loading Ieee IeeeFbank.
From Verif.Proof Require Checked CheckedCases LmCases ExpCases EndCases TotalCases IeeeCases.
Import ListNotations.
Open Scope Z_scope.

(** One recording. *)
Theorem checked_prints : forall lib M junk junk_int tenth of_word unknown files hclg why lm_fuel header_error fn m blocks k ls,
  let O := ieee lib in let X := ieee_wide in
  libm M -> close_logf M -> sane_log lib -> sane_exp lib ->
  stored O of_word files hclg fn m -> checked_model lib of_word lm_fuel tenth m blocks k ls ->
  exists wm, weights_of O of_word m wm /\
  forall input content, ends_in input (lit ".wav") -> files input = Some content -> short_wav m k content ->
  exists rc fuel0 hyp, made_of O of_word (ieee_trig M) (ieee_init M) junk junk_int lm_fuel m rc /\
    heard O X tenth m wm blocks rc content hyp /\
    forall fuel, (fuel0 <= fuel)%nat ->
      run_main O X tenth fuel files
        (stt_load O (ieee_trig M) (ieee_init M) junk junk_int of_word unknown files hclg why lm_fuel) header_error [fn; input]
      = Ok (hyp ++ [10], 0).
Proof. exact Proof.Checked.checked_file. Qed.
Print Assumptions checked_prints.

(** A list of recordings: one line for each, in their order. *)
Theorem checked_list_prints : forall lib M junk junk_int tenth of_word unknown files hclg why lm_fuel header_error fn m blocks k ls,
  let O := ieee lib in let X := ieee_wide in
  libm M -> close_logf M -> sane_log lib -> sane_exp lib ->
  stored O of_word files hclg fn m -> checked_model lib of_word lm_fuel tenth m blocks k ls ->
  exists rc wm, made_of O of_word (ieee_trig M) (ieee_init M) junk junk_int lm_fuel m rc /\ weights_of O of_word m wm /\
  forall input entries,
  ~ ends_in input (lit ".wav") -> 4 <= lenZ input -> files input = Some (list_file entries) -> Forall entry_ok entries ->
  Forall (fun e => exists content, files (snd e) = Some content /\ short_wav m k content) entries ->
  exists fuel0 hyps,
    Forall2 (fun e hyp => exists content, files (snd e) = Some content /\ heard O X tenth m wm blocks rc content hyp) entries hyps /\
    forall fuel, (fuel0 <= fuel)%nat ->
      run_main O X tenth fuel files
        (stt_load O (ieee_trig M) (ieee_init M) junk junk_int of_word unknown files hclg why lm_fuel) header_error [fn; input]
      = Ok (printed entries hyps, 0).
Proof. exact Proof.Checked.checked_list. Qed.
Print Assumptions checked_list_prints.

(** A model with the words "so" and "what" and a language model, in files, and a
    list of three lines; the first file has 720 samples, the other 400. *)
Theorem checked_case :
  sane_log Proof.ExpCases.loud /\ sane_exp Proof.ExpCases.loud /\
  stored (ieee Proof.ExpCases.loud) Proof.EndCases.bits32 Proof.CheckedCases.files19 Proof.EndCases.hclg11 (lit "d/m") Proof.CheckedCases.model19 /\
  (forall lm_fuel, (4 <= lm_fuel)%nat -> checked_model Proof.ExpCases.loud Proof.EndCases.bits32 lm_fuel (IeeeCases.tenth 1)
     Proof.CheckedCases.model19 (Proof.ExpCases.blocks17 Proof.ExpCases.mild_word) 1 Proof.ExpCases.before17) /\
  ~ one_word Proof.TotalCases.graph9 /\
  (~ ends_in (lit "l.scp") (lit ".wav") /\ 4 <= lenZ (lit "l.scp") /\
   Proof.CheckedCases.files19 (lit "l.scp") = Some (list_file Proof.CheckedCases.entries19) /\
   Forall entry_ok Proof.CheckedCases.entries19 /\
   Forall (fun e => exists content, Proof.CheckedCases.files19 (snd e) = Some content /\ short_wav Proof.CheckedCases.model19 1 content)
     Proof.CheckedCases.entries19).
Proof.
  exact (conj Proof.ExpCases.loud_log (conj Proof.ExpCases.loud_sane (conj Proof.CheckedCases.stored19 (conj Proof.CheckedCases.checked19
    (conj Proof.CheckedCases.two_words9 Proof.CheckedCases.list19))))).
Qed.
Print Assumptions checked_case.

(** What the program prints with these files. *)
Theorem checked_prints_here : forall M junk junk_int unknown why lm_fuel header_error, libm M -> close_logf M -> (4 <= lm_fuel)%nat ->
  exists fuel0 h1 h2 h3, forall fuel, (fuel0 <= fuel)%nat ->
    run_main (ieee Proof.ExpCases.loud) ieee_wide (IeeeCases.tenth 1) fuel Proof.CheckedCases.files19
      (stt_load (ieee Proof.ExpCases.loud) (ieee_trig M) (ieee_init M) junk junk_int Proof.EndCases.bits32 unknown Proof.CheckedCases.files19
         Proof.EndCases.hclg11 why lm_fuel) header_error [lit "d/m"; lit "l.scp"]
    = Ok (lit "v1 " ++ h1 ++ [10] ++ lit "v2 " ++ h2 ++ [10] ++ lit "v1 " ++ h3 ++ [10], 0).
Proof. exact Proof.CheckedCases.prints19. Qed.
Print Assumptions checked_prints_here.
