(** Log probabilities of the network in single precision (C107): finite for mild
    activations, infinite beyond the range of exp; what the program does then. *)
From Coq Require Import ZArith String List Bool Floats.SpecFloat.
From Verif.Base Require Import Prelude.
From Verif.Spec Require Import AudioSpec AmSpec PcmSpec TextSpec NnetSpec FbankSpec DecoderSpec SttSpec TotalSpec SessionSpec LibmSpec ValueSpec LoadingSpec ProgramSpec EndSpec CommandSpec PlainSpec ExpSpec.
From Verif.Model Require Import Util Arith Vector Pcm Fbank Srfft FbankInit Nnet Pool Fst Decoder Stt Main Loading Ieee IeeeFbank.
From Verif.Proof Require ExpLimits ExpProgram ExpUse ExpCases CommandUse IeeeCases EndCases MelCloseCases.
Import ListNotations.
Open Scope Z_scope.

(** No activation above 80 and one of at least -80: the log probabilities are
    finite. *)
Theorem log_softmax_finite : forall L (m old : matrix float32), sane_exp L -> Forall mild m ->
  exists m', propagate (ieee L) LogSoftmax m old = Ok m' /\ Forall (Forall (in32 (1, 99))) m' /\ map lenZ m' = map lenZ m.
Proof. exact Proof.ExpLimits.log_softmax_finite. Qed.
Print Assumptions log_softmax_finite.

Theorem log_softmax_finite_case : sane_exp Proof.ExpCases.loud /\
  Forall mild [[IeeeCases.num 3 0; IeeeCases.num (-2000) 0; IeeeCases.num 79 0]; [IeeeCases.num (-80) 0]].
Proof. exact (conj Proof.ExpCases.loud_sane Proof.ExpCases.mild17). Qed.
Print Assumptions log_softmax_finite_case.

(** One activation of 89 or more: all log probabilities are minus infinity. *)
Theorem log_softmax_overflow : forall L (m old : matrix float32), steep_exp L ->
  Forall (fun row => Forall (fun x => is_finite (fl_val x) = true) row /\ Exists (above32 89 0) row) m ->
  propagate (ieee L) LogSoftmax m old = Ok (map (map (fun _ => minus_inf)) m).
Proof. exact Proof.ExpLimits.log_softmax_overflow. Qed.
Print Assumptions log_softmax_overflow.

Theorem log_softmax_overflow_case : steep_exp Proof.ExpCases.loud /\
  Forall (fun row => Forall (fun x => is_finite (fl_val x) = true) row /\ Exists (above32 89 0) row)
    [[IeeeCases.num 3 0; IeeeCases.num (-2000) 0; IeeeCases.num 89 0]; [IeeeCases.num 100 0; IeeeCases.num 0 0]].
Proof. exact (conj Proof.ExpCases.loud_steep Proof.ExpCases.over17). Qed.
Print Assumptions log_softmax_overflow_case.

(** All activations -105 or less: all log probabilities are plus infinity. *)
Theorem log_softmax_underflow : forall L (m old : matrix float32), steep_exp L ->
  Forall (fun row => Forall (fun x => is_finite (fl_val x) = true /\ below32 (-105) 0 x) row) m ->
  propagate (ieee L) LogSoftmax m old = Ok (map (map (fun _ => plus_inf)) m).
Proof. exact Proof.ExpLimits.log_softmax_underflow. Qed.
Print Assumptions log_softmax_underflow.

Theorem log_softmax_underflow_case : steep_exp Proof.ExpCases.loud /\
  Forall (fun row => Forall (fun x => is_finite (fl_val x) = true /\ below32 (-105) 0 x) row) [[IeeeCases.num (-105) 0; IeeeCases.num (-2000) 0]].
Proof. exact (conj Proof.ExpCases.loud_steep Proof.ExpCases.under17). Qed.
Print Assumptions log_softmax_underflow_case.

(** The program of C106, for a network that ends in a log softmax: mild activations
    for all features that audio can have are enough. *)
Theorem mild_prints : forall lib M junk junk_int tenth of_word unknown files hclg why lm_fuel header_error fn m blocks k ls,
  let O := ieee lib in let X := ieee_wide in
  libm M -> close_logf M -> sane_log lib -> sane_exp lib ->
  stored O of_word files hclg fn m -> network_fits m blocks -> one_word (m_graph m) ->
  m_lm m = None -> sound_graph (m_graph m) (m_tid2pdf m) (lenZ (m_prior m)) ->
  (forall s a, arc_from (m_graph m) s a -> moderate (weight a) /\ (output_label a <> 0 -> exists name, In (name, output_label a) (m_words m))) ->
  in32 (1, 0) tenth -> short_silence (m_graph m) k ->
  m_layers m = ls ++ [LogSoftmax] -> Forall (fun w => in32 (1, 98) (f_log O (of_word w))) (m_prior m) ->
  (forall w y, List.length w = S (left_context blocks + right_context blocks) -> Forall (fun r => lenZ r = 40 /\ Forall (in32 (1, 7)) r) w ->
     nnet_propagate O (map (layer_numbers of_word) ls) w = Ok [y] -> mild y) ->
  forall input bits chunk size data xs rest,
  ends_in input (lit ".wav") -> files input = Some (wav bits chunk size data) -> wav_sizes bits chunk size -> byte_list data ->
  AudioSpec.decodes (Z.to_nat (bits / 8)) data xs rest ->
  (Z.of_nat (num_windows 400 160 (List.length xs)) + 1) * (k + 1) <= 4194304 ->
  exists rc rows,
    made_of O of_word (ieee_trig M) (ieee_init M) junk junk_int lm_fuel m rc /\
    rows_of O rc (left_context blocks) (right_context blocks) (map (f_int O) xs) rows /\
  exists fuel0 out,
    (out = [] \/ exists w s c total, In (out, w) (m_words m) /\
       path O X (m_graph m) (m_tid2pdf m) tenth None (rev rows) s c [w] /\
       ending X (m_graph m) None true s c total /\ x_is_inf X total = false) /\
    forall fuel, (fuel0 <= fuel)%nat ->
      run_main O X tenth fuel files
        (stt_load O (ieee_trig M) (ieee_init M) junk junk_int of_word unknown files hclg why lm_fuel) header_error [fn; input]
      = Ok (out ++ [10], 0).
Proof. exact Proof.ExpUse.mild_printed. Qed.
Print Assumptions mild_prints.

(** A model in files whose activations are 1 and 0, and 720 samples. *)
Theorem mild_prints_case : let O := ieee Proof.ExpCases.loud in let m := Proof.ExpCases.model17 Proof.ExpCases.mild_word in
  sane_log Proof.ExpCases.loud /\ sane_exp Proof.ExpCases.loud /\
  stored O Proof.EndCases.bits32 (Proof.ExpCases.files17 Proof.ExpCases.mild_word) Proof.CommandUse.hclg13 (lit "d/m") m /\
  network_fits m (Proof.ExpCases.blocks17 Proof.ExpCases.mild_word) /\ one_word (m_graph m) /\
  m_lm m = None /\ sound_graph (m_graph m) (m_tid2pdf m) (lenZ (m_prior m)) /\
  (forall s a, arc_from (m_graph m) s a -> moderate (weight a) /\ (output_label a <> 0 -> exists name, In (name, output_label a) (m_words m))) /\
  in32 (1, 0) (IeeeCases.tenth 1) /\ short_silence (m_graph m) 1 /\
  m_layers m = Proof.ExpCases.before17 ++ [LogSoftmax] /\
  Forall (fun w => in32 (1, 98) (f_log O (Proof.EndCases.bits32 w))) (m_prior m) /\
  (forall w y, nnet_propagate O (map (layer_numbers Proof.EndCases.bits32) Proof.ExpCases.before17) w = Ok [y] -> mild y) /\
  AudioSpec.decodes 2 Proof.ExpCases.audio17 Proof.ExpCases.samples17 [] /\
  (Z.of_nat (num_windows 400 160 (List.length Proof.ExpCases.samples17)) + 1) * (1 + 1) <= 4194304.
Proof. exact (conj Proof.ExpCases.loud_log (conj Proof.ExpCases.loud_sane Proof.ExpCases.mild_case)). Qed.
Print Assumptions mild_prints_case.

(** Without mild activations the program does not come to its end: the same files
    with an activation of 100 and three frames of audio. *)
Theorem loud_prints_refuted : ~ (forall lib M junk junk_int tenth of_word unknown files hclg why lm_fuel header_error fn m blocks k ls,
  libm M -> close_logf M -> sane_log lib -> sane_exp lib ->
  stored (ieee lib) of_word files hclg fn m -> network_fits m blocks -> one_word (m_graph m) ->
  m_lm m = None -> sound_graph (m_graph m) (m_tid2pdf m) (lenZ (m_prior m)) ->
  (forall s a, arc_from (m_graph m) s a -> moderate (weight a) /\ (output_label a <> 0 -> exists name, In (name, output_label a) (m_words m))) ->
  in32 (1, 0) tenth -> short_silence (m_graph m) k ->
  m_layers m = ls ++ [LogSoftmax] -> Forall (fun w => in32 (1, 98) (f_log (ieee lib) (of_word w))) (m_prior m) ->
  forall input bits chunk size data xs rest,
  ends_in input (lit ".wav") -> files input = Some (wav bits chunk size data) -> wav_sizes bits chunk size -> byte_list data ->
  AudioSpec.decodes (Z.to_nat (bits / 8)) data xs rest ->
  (Z.of_nat (num_windows 400 160 (List.length xs)) + 1) * (k + 1) <= 4194304 ->
  exists fuel0 out, forall fuel, (fuel0 <= fuel)%nat ->
    run_main (ieee lib) ieee_wide tenth fuel files
      (stt_load (ieee lib) (ieee_trig M) (ieee_init M) junk junk_int of_word unknown files hclg why lm_fuel) header_error [fn; input]
    = Ok (out, 0)).
Proof. exact Proof.ExpCases.loud_refuted. Qed.
Print Assumptions loud_prints_refuted.

(** The reason: three rows of minus infinity, and the decoder reads from an empty
    list of tokens, whatever is in its cache. *)
Theorem loud_decoder_refuted : forall C (cache : C) n, exists d0 d1,
  let O := ieee Proof.ExpCases.loud in
  let cfg := new_config O Proof.CommandUse.graph13 [0; 0; 1] (IeeeCases.tenth 1) None in
  let row := [minus_inf; minus_inf] in
  new_decoder cache = Ok d0 /\ initialize O ieee_wide cfg (50 + n) d0 = Ok d1 /\
  for_each [row; row; row] (fun d logp => '(d, _) <- process O ieee_wide cfg collector (50 + n) d logp ;; Ok d) d1 = Fault Undef.
Proof. exact Proof.ExpCases.fed17_only. Qed.
Print Assumptions loud_decoder_refuted.
