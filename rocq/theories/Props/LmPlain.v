(** Conditions that can be checked, with a language model (C109): from the language
    model, the graph and limits of the numbers follows what other theorems ask for. *)
From Coq Require Import ZArith String List.
From Verif.Base Require Import Prelude.
From Verif.Spec Require Import AudioSpec AmSpec PcmSpec TextSpec NnetSpec FbankSpec FstSpec DecoderSpec SttSpec TotalSpec SessionSpec LibmSpec ValueSpec LoadingSpec ProgramSpec EndSpec CommandSpec PlainSpec ExpSpec LmPlainSpec.
From Verif.Model Require Import Util Arith Pcm Fbank Srfft FbankInit Nnet Pool Fst Decoder Stt Main Loading Ieee IeeeFbank.
From Verif.Proof Require LmPlain LmCosts LmUse LmCases ExpCases CommandUse IeeeCases EndCases.
Import ListNotations.
Open Scope Z_scope.

(** The language model of a decoder: back-off in the large model less the costs of
    the small one. *)
Theorem sound_lm_words : forall F (O : fops F) (g : graph F) small t bos eos table fuel,
  init_bucket (laid_out t) = Ok table -> sound_lm g small t bos eos -> (List.length (t_states t) <= fuel)%nat ->
  back_off_words O small t bos eos (delta_words O fuel (mk_delta small (laid_out t) table bos eos)).
Proof. exact @Proof.LmPlain.words_back_off. Qed.
Print Assumptions sound_lm_words.

(** The cost of "so" after the start of a sentence is 0.5 less 1; after another "so"
    it is found by back-off, and is 2 and 2 less 1. *)
Theorem sound_lm_words_case :
  let small := map Proof.EndCases.bits32 Proof.LmCases.costs18 in let large := map_weights Proof.EndCases.bits32 Proof.LmCases.lm18 in
  sound_lm Proof.CommandUse.graph13 small large 9 8 /\
  forall lib wm, back_off_words (ieee lib) small large 9 8 wm ->
  wm_start wm = 1 /\ (exists c, wm_next wm 1 5 = Some (2, c) /\ fl_val c = fl_val (Proof.EndCases.bits32 3204448256)) /\
  (exists c, wm_next wm 2 5 = Some (2, c) /\ fl_val c = fl_val (Proof.EndCases.bits32 1077936128)).
Proof. exact (conj Proof.LmCases.sound_lm18 Proof.LmCases.words18). Qed.
Print Assumptions sound_lm_words_case.

(** With a sound graph, such a language model and rows of the right width a decoder
    has what it needs, and a recording can end in every state. *)
Theorem sound_lm_fits : forall F D (O : fops F) (X : xops F D) cfg small t bos eos table fuel width,
  let lm := mk_delta small (laid_out t) table bos eos in
  c_lm cfg = Some (cached_lm O fuel lm) -> init_bucket (laid_out t) = Ok table ->
  sound_graph (c_graph cfg) (c_pdf cfg) width -> sound_lm (c_graph cfg) small t bos eos -> (List.length (t_states t) <= fuel)%nat ->
  forall rows, Forall (fun r => lenZ r = width) rows ->
  run_fits O X cfg (Some (delta_words O fuel lm)) (true_cache O fuel lm) rows (all_pairs (c_graph cfg) t) /\
  lively cfg (all_pairs (c_graph cfg) t) /\ ends cfg (all_pairs (c_graph cfg) t).
Proof. exact @Proof.LmPlain.lm_fits. Qed.
Print Assumptions sound_lm_fits.

(** In single precision the costs of the words are at most 2 ^ 100, however often
    the language model backs off. *)
Theorem sound_lm_moderate : forall L (g : graph float32) small t bos eos table fuel,
  init_bucket (laid_out t) = Ok table -> (exists s, 0 <= s < lenZ (g_states g)) -> sound_lm g small t bos eos -> moderate_lm small t ->
  (List.length (t_states t) <= fuel)%nat ->
  forall s x s' c, wm_next (delta_words (ieee L) fuel (mk_delta small (laid_out t) table bos eos)) s x = Some (s', c) -> moderate c.
Proof. exact (Proof.LmCosts.asked 2200 (2 ^ (1024 + 2200)) (Z.le_refl _) (Z.le_refl _)). Qed.
Print Assumptions sound_lm_moderate.

(** The program, with a language model, where a path has one word at most: it
    prints nothing or the word of a path. *)
Theorem lm_prints : forall lib M junk junk_int tenth of_word unknown files hclg why lm_fuel header_error fn m blocks k costs t,
  let O := ieee lib in let X := ieee_wide in let small := map of_word costs in let large := map_weights of_word t in
  libm M -> close_logf M -> stored O of_word files hclg fn m -> network_fits m blocks -> one_word (m_graph m) ->
  m_lm m = Some (costs, t) -> sound_graph (m_graph m) (m_tid2pdf m) (lenZ (m_prior m)) ->
  sound_lm (m_graph m) small large (m_bos m) (m_eos m) -> moderate_lm small large -> (List.length (t_states t) <= lm_fuel)%nat ->
  (forall s a, arc_from (m_graph m) s a -> moderate (weight a) /\ (output_label a <> 0 -> exists name, In (name, output_label a) (m_words m))) ->
  in32 (1, 0) tenth -> short_silence (m_graph m) k ->
  exists wm, back_off_words O small large (m_bos m) (m_eos m) wm /\
  forall input bits chunk size data xs rest,
  ends_in input (lit ".wav") -> files input = Some (wav bits chunk size data) -> wav_sizes bits chunk size -> byte_list data ->
  AudioSpec.decodes (Z.to_nat (bits / 8)) data xs rest ->
  exists rc rows,
    made_of O of_word (ieee_trig M) (ieee_init M) junk junk_int lm_fuel m rc /\
    rows_of O rc (left_context blocks) (right_context blocks) (map (f_int O) xs) rows /\
  (Forall (Forall moderate) rows -> (lenZ rows + 1) * (k + 1) <= 4194304 ->
  exists fuel0 out,
    (out = [] \/ exists w s c total, In (out, w) (m_words m) /\
       path O X (m_graph m) (m_tid2pdf m) tenth (Some wm) (rev rows) s c [w] /\
       ending X (m_graph m) (Some wm) true s c total /\ x_is_inf X total = false) /\
    forall fuel, (fuel0 <= fuel)%nat ->
      run_main O X tenth fuel files
        (stt_load O (ieee_trig M) (ieee_init M) junk junk_int of_word unknown files hclg why lm_fuel) header_error [fn; input]
      = Ok (out ++ [10], 0)).
Proof. exact Proof.LmUse.lm_printed. Qed.
Print Assumptions lm_prints.

(** The same for a network that ends in a log softmax, with no limit on what the
    program computes itself but mild activations. *)
Theorem mild_lm_prints : forall lib M junk junk_int tenth of_word unknown files hclg why lm_fuel header_error fn m blocks k costs t ls,
  let O := ieee lib in let X := ieee_wide in let small := map of_word costs in let large := map_weights of_word t in
  libm M -> close_logf M -> sane_log lib -> sane_exp lib ->
  stored O of_word files hclg fn m -> network_fits m blocks -> one_word (m_graph m) ->
  m_lm m = Some (costs, t) -> sound_graph (m_graph m) (m_tid2pdf m) (lenZ (m_prior m)) ->
  sound_lm (m_graph m) small large (m_bos m) (m_eos m) -> moderate_lm small large -> (List.length (t_states t) <= lm_fuel)%nat ->
  (forall s a, arc_from (m_graph m) s a -> moderate (weight a) /\ (output_label a <> 0 -> exists name, In (name, output_label a) (m_words m))) ->
  in32 (1, 0) tenth -> short_silence (m_graph m) k ->
  m_layers m = ls ++ [LogSoftmax] -> Forall (fun w => in32 (1, 98) (f_log O (of_word w))) (m_prior m) ->
  (forall w y, List.length w = S (left_context blocks + right_context blocks) -> Forall (fun r => lenZ r = 40 /\ Forall (in32 (1, 7)) r) w ->
     nnet_propagate O (map (layer_numbers of_word) ls) w = Ok [y] -> mild y) ->
  exists wm, back_off_words O small large (m_bos m) (m_eos m) wm /\
  forall input bits chunk size data xs rest,
  ends_in input (lit ".wav") -> files input = Some (wav bits chunk size data) -> wav_sizes bits chunk size -> byte_list data ->
  AudioSpec.decodes (Z.to_nat (bits / 8)) data xs rest ->
  (Z.of_nat (num_windows 400 160 (List.length xs)) + 1) * (k + 1) <= 4194304 ->
  exists rc rows,
    made_of O of_word (ieee_trig M) (ieee_init M) junk junk_int lm_fuel m rc /\
    rows_of O rc (left_context blocks) (right_context blocks) (map (f_int O) xs) rows /\
  exists fuel0 out,
    (out = [] \/ exists w s c total, In (out, w) (m_words m) /\
       path O X (m_graph m) (m_tid2pdf m) tenth (Some wm) (rev rows) s c [w] /\
       ending X (m_graph m) (Some wm) true s c total /\ x_is_inf X total = false) /\
    forall fuel, (fuel0 <= fuel)%nat ->
      run_main O X tenth fuel files
        (stt_load O (ieee_trig M) (ieee_init M) junk junk_int of_word unknown files hclg why lm_fuel) header_error [fn; input]
      = Ok (out ++ [10], 0).
Proof. exact Proof.LmUse.mild_lm_printed. Qed.
Print Assumptions mild_lm_prints.

(** A model in files with a language model of four states, activations of 1 and 0,
    and 720 samples. *)
Theorem mild_lm_prints_case : let O := ieee Proof.ExpCases.loud in let m := Proof.LmCases.model18 in
  let small := map Proof.EndCases.bits32 Proof.LmCases.costs18 in let large := map_weights Proof.EndCases.bits32 Proof.LmCases.lm18 in
  stored O Proof.EndCases.bits32 Proof.LmCases.files18 Proof.CommandUse.hclg13 (lit "d/m") m /\
  network_fits m (Proof.ExpCases.blocks17 Proof.ExpCases.mild_word) /\ one_word (m_graph m) /\
  m_lm m = Some (Proof.LmCases.costs18, Proof.LmCases.lm18) /\ sound_graph (m_graph m) (m_tid2pdf m) (lenZ (m_prior m)) /\
  sound_lm (m_graph m) small large (m_bos m) (m_eos m) /\ moderate_lm small large /\
  (forall s a, arc_from (m_graph m) s a -> moderate (weight a) /\ (output_label a <> 0 -> exists name, In (name, output_label a) (m_words m))) /\
  in32 (1, 0) (IeeeCases.tenth 1) /\ short_silence (m_graph m) 1 /\
  m_layers m = Proof.ExpCases.before17 ++ [LogSoftmax] /\
  Forall (fun w => in32 (1, 98) (f_log O (Proof.EndCases.bits32 w))) (m_prior m) /\
  (forall w y, nnet_propagate O (map (layer_numbers Proof.EndCases.bits32) Proof.ExpCases.before17) w = Ok [y] -> mild y) /\
  AudioSpec.decodes 2 Proof.ExpCases.audio17 Proof.ExpCases.samples17 [] /\
  (Z.of_nat (num_windows 400 160 (List.length Proof.ExpCases.samples17)) + 1) * (1 + 1) <= 4194304.
Proof. exact Proof.LmCases.case18. Qed.
Print Assumptions mild_lm_prints_case.

(** The program with these files comes to its end. *)
Theorem lm_prints_here : forall M junk junk_int unknown why lm_fuel header_error, libm M -> close_logf M -> (4 <= lm_fuel)%nat ->
  exists fuel0 out, forall fuel, (fuel0 <= fuel)%nat ->
    run_main (ieee Proof.ExpCases.loud) ieee_wide (IeeeCases.tenth 1) fuel Proof.LmCases.files18
      (stt_load (ieee Proof.ExpCases.loud) (ieee_trig M) (ieee_init M) junk junk_int Proof.EndCases.bits32 unknown Proof.LmCases.files18
         Proof.CommandUse.hclg13 why lm_fuel) header_error [lit "d/m"; lit "u.wav"]
    = Ok (out ++ [10], 0).
Proof. exact Proof.LmCases.prints18. Qed.
Print Assumptions lm_prints_here.
