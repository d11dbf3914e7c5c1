(** From a model in files and a list of audio files to what the program prints
    (C90). *)
From Coq Require Import ZArith Reals String List.
From Verif.Base Require Import Prelude.
From Verif.Spec Require Import AudioSpec PcmSpec TextSpec NnetSpec FbankSpec DecoderSpec SttSpec TotalSpec SessionSpec LibmSpec ValueSpec LoadingSpec ProgramSpec EndSpec ListSpec.
From Verif.Model Require Import Util Arith Fbank Srfft FbankInit Pool Fst Decoder Stt Main Loading Ieee IeeeFbank.
From Verif.Proof Require Import EndList.
From Verif.Proof Require EndCases ListCases FiniteCases IeeeCases.
Import ListNotations.
Open Scope Z_scope.

(** Full statement: without the condition on collections in [decodable] (see
    C45) and for lists whose last line has no newline (see C65). *)
Theorem list_prints_words_partial : forall lib M junk junk_int tenth of_word unknown files hclg why lm_fuel header_error fn m blocks,
  let O := ieee lib in let X := ieee_wide in
  libm M -> close_logf M -> stored O of_word files hclg fn m -> network_fits m blocks ->
  forall wm good, model_words O of_word lm_fuel m wm good ->
  exists rc, made_of O of_word (ieee_trig M) (ieee_init M) junk junk_int lm_fuel m rc /\
  forall input entries,
  ~ ends_in input (lit ".wav") -> 4 <= lenZ input -> files input = Some (list_file entries) -> Forall entry_ok entries ->
  Forall (fun e => exists content, files (snd e) = Some content /\ decodable O X tenth m wm good blocks rc content) entries ->
  exists fuel0 hyps,
    Forall2 (fun e hyp => exists content, files (snd e) = Some content /\ heard O X tenth m wm blocks rc content hyp) entries hyps /\
    forall fuel, (fuel0 <= fuel)%nat ->
      run_main O X tenth fuel files
        (stt_load O (ieee_trig M) (ieee_init M) junk junk_int of_word unknown files hclg why lm_fuel) header_error [fn; input]
      = Ok (printed entries hyps, 0).
Proof. exact list_text. Qed.
Print Assumptions list_prints_words_partial.

(** The model of the case of C86 with a list of two files. *)
Example list_case :
  stored (ieee FiniteCases.rough) EndCases.bits32 ListCases.files13 EndCases.hclg11 (lit "d/m") EndCases.model11 /\
  network_fits EndCases.model11 EndCases.blocks11 /\
  (~ ends_in (lit "l.scp") (lit ".wav") /\ 4 <= lenZ (lit "l.scp") /\
   ListCases.files13 (lit "l.scp") = Some (list_file ListCases.entries13) /\ Forall entry_ok ListCases.entries13 /\
   forall M junk junk_int lm_fuel rc, libm M ->
   made_of (ieee FiniteCases.rough) EndCases.bits32 (ieee_trig M) (ieee_init M) junk junk_int lm_fuel EndCases.model11 rc ->
   Forall (fun e => exists content, ListCases.files13 (snd e) = Some content /\
     decodable (ieee FiniteCases.rough) ieee_wide (IeeeCases.tenth 1) EndCases.model11 None (fun _ => True) EndCases.blocks11 rc content)
     ListCases.entries13).
Proof. exact (conj ListCases.stored13 (conj EndCases.fits11 ListCases.list13)). Qed.
