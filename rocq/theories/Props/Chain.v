(** From what Kaldi leaves to what the program prints (C89). *)
From Coq Require Import ZArith Reals String List.
From Verif.Base Require Import Prelude.
From Verif.Spec Require Import AudioSpec PcmSpec TextSpec NnetSpec FbankSpec DecoderSpec SttSpec TotalSpec SessionSpec LibmSpec ValueSpec LoadingSpec ProgramSpec EndSpec ChainSpec.
From Verif.Model Require Import Util Arith Fbank Srfft FbankInit Pool Fst Decoder Stt Main Loading Tools Ieee IeeeFbank.
From Verif.Proof Require Import EndToEnd Chain ChainText.
From Verif.Proof Require EndCases ChainCases FiniteCases IeeeCases.
Import ListNotations.
Open Scope Z_scope.

(** Files made by the scripts hold the model that was meant, and its network
    fits. *)
Theorem scripts_make_models : forall F N (O : fops F) of_word (P : py_float N) sc off files hclg fn k blocks m,
  made_by_scripts P sc off files hclg fn k blocks -> meant O of_word P sc off k blocks m ->
  stored O of_word files hclg fn m /\
  exists blocks', network_fits m blocks' /\ left_context blocks' = left_context blocks /\ right_context blocks' = right_context blocks.
Proof. exact (fun F N => @scripts_store F N). Qed.
Print Assumptions scripts_make_models.

(** The program prints, for such a model and a WAV file, the words of a path
    through the decoding graph, or an empty line.
    Full statement: without [run_safe] (see C45). *)
Theorem scripts_print_words_partial : forall N (P : py_float N) sc off lib M junk junk_int tenth of_word unknown files hclg why lm_fuel header_error fn k blocks m,
  let O := ieee lib in let X := ieee_wide in
  libm M -> close_logf M -> made_by_scripts P sc off files hclg fn k blocks -> meant O of_word P sc off k blocks m ->
  forall wm good, model_words O of_word lm_fuel m wm good ->
  forall input bits chunk size data xs rest,
  ends_in input (lit ".wav") -> files input = Some (wav bits chunk size data) -> wav_sizes bits chunk size -> byte_list data ->
  AudioSpec.decodes (Z.to_nat (bits / 8)) data xs rest ->
  exists rc rows,
    made_of O of_word (ieee_trig M) (ieee_init M) junk junk_int lm_fuel m rc /\
    rows_of O rc (left_context blocks) (right_context blocks) (map (f_int O) xs) rows /\
  forall states,
  let cfg := utt_config O tenth rc in
  run_fits O X cfg wm good rows states -> (forall fuel, run_safe O X cfg fuel (rc_cache rc) rows) ->
  lively cfg states -> finite_costs O X cfg wm rows -> brief O X cfg wm rows -> ends cfg states -> listed m states ->
  exists fuel0 words names,
    Forall2 (fun w name => In (name, w) (k_words k)) words names /\
    (words = [] \/ exists s c total,
       path O X (k_graph k) (k_pdfs k) tenth wm (rev rows) s c words /\
       ending X (k_graph k) wm true s c total /\ x_is_inf X total = false) /\
    forall fuel, (fuel0 <= fuel)%nat ->
      run_main O X tenth fuel files
        (stt_load O (ieee_trig M) (ieee_init M) junk junk_int of_word unknown files hclg why lm_fuel) header_error [fn; input]
      = Ok (join [32] names ++ [10], 0).
Proof. exact scripts_text. Qed.
Print Assumptions scripts_print_words_partial.

(** A text of Kaldi with a layer of 120 times 2 numbers, files made of it, and
    the text that is printed; and the same with language models. *)
Example chain_case : forall sc off,
  made_by_scripts ChainCases.word_float sc off EndCases.files11 EndCases.hclg11 (lit "d/m") (ChainCases.kaldi11 None) EndCases.blocks11 /\
  meant (ieee FiniteCases.rough) EndCases.bits32 ChainCases.word_float sc off (ChainCases.kaldi11 None) EndCases.blocks11 EndCases.model11 /\
  forall junk junk_int unknown why lm_fuel header_error,
  exists fuel0, forall fuel, (fuel0 <= fuel)%nat ->
  run_main (ieee FiniteCases.rough) ieee_wide (IeeeCases.tenth 1) fuel EndCases.files11
    (stt_load (ieee FiniteCases.rough) (ieee_trig FiniteCases.rough_trig) (ieee_init FiniteCases.rough_trig) junk junk_int EndCases.bits32 unknown EndCases.files11 EndCases.hclg11 why lm_fuel) header_error
    [lit "d/m"; lit "u.wav"] = Ok (lit "so what" ++ [10], 0).
Proof. exact (fun sc off => conj (ChainCases.made11 sc off) (conj (ChainCases.meant11 sc off) EndCases.printed11)). Qed.

Example chain_lm_case : forall sc off,
  made_by_scripts ChainCases.word_float sc off ChainCases.files12 EndCases.hclg11 (lit "d/m") (ChainCases.kaldi11 ChainCases.lm12) EndCases.blocks11 /\
  meant (ieee FiniteCases.rough) EndCases.bits32 ChainCases.word_float sc off (ChainCases.kaldi11 ChainCases.lm12) EndCases.blocks11 ChainCases.model12.
Proof. exact (fun sc off => conj (ChainCases.made12 sc off) (ChainCases.meant12 sc off)). Qed.
