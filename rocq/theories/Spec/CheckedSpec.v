(** Models whose files and network can be checked once and for all, and audio that
    they decode. *)
From Coq Require Import ZArith List.
From Verif.Base Require Import Prelude.
From Verif.Model Require Import Arith Vector Nnet SymbolTable Fst Decoder Stt Ieee.
From Verif.Spec Require Import AudioSpec NnetSpec FstSpec DecoderSpec LibmSpec LoadingSpec ProgramSpec EndSpec CommandSpec PlainSpec ExpSpec LmPlainSpec.
Import ListNotations.
Open Scope Z_scope.

(** Sound graph and language model with moderate weights, known words and at most
    [k] silent arcs in a row; the layers before the last, [ls], have mild
    activations for all features that audio can have. *)
Record checked_model (lib : library) (of_word : Z -> float32) (lm_fuel : nat) (tenth : float32) (m : model (graph float32))
  (blocks : list (block Z)) (k : Z) (ls : list (layer Z)) : Prop := {
  cm_network : network_fits m blocks;
  cm_graph : sound_graph (m_graph m) (m_tid2pdf m) (lenZ (m_prior m));
  cm_arcs : forall s a, arc_from (m_graph m) s a ->
    moderate (weight a) /\ (output_label a <> 0 -> exists name, In (name, output_label a) (m_words m));
  cm_tenth : in32 (1, 0) tenth;
  cm_silence : short_silence (m_graph m) k;
  cm_layers : m_layers m = ls ++ [LogSoftmax];
  cm_prior : Forall (fun w => in32 (1, 98) (f_log (ieee lib) (of_word w))) (m_prior m);
  cm_mild : forall w y, length w = S (left_context blocks + right_context blocks) ->
    Forall (fun r => lenZ r = 40 /\ Forall (in32 (1, 7)) r) w ->
    nnet_propagate (ieee lib) (map (layer_numbers of_word) ls) w = Ok [y] -> mild y;
  cm_lm : forall costs t, m_lm m = Some (costs, t) ->
    sound_lm (m_graph m) (map of_word costs) (map_weights of_word t) (m_bos m) (m_eos m) /\
    moderate_lm (map of_word costs) (map_weights of_word t) /\ (length (t_states t) <= lm_fuel)%nat
}.

(** A mono 16 kHz WAV file of limited length; beyond 20 frames, for a graph of
    single words. *)
Definition short_wav (m : model (graph float32)) (k : Z) (content : bytes) : Prop :=
  exists bits chunk size data xs rest,
    content = wav bits chunk size data /\ wav_sizes bits chunk size /\ byte_list content /\
    AudioSpec.decodes (Z.to_nat (bits / 8)) data xs rest /\
    let frames := Z.of_nat (num_windows 400 160 (length xs)) in
    (frames + 1) * (k + 1) < 100000 /\ (one_word (m_graph m) \/ frames <= 20).

(** The weights of words: those of back-off, or none. *)
Definition weights_of {F} (O : fops F) (of_word : Z -> F) (m : model (graph F)) (wm : option (word_model F)) : Prop :=
  match m_lm m with
  | None => wm = None
  | Some (costs, t) => exists w, wm = Some w /\
      back_off_words O (map of_word costs) (map_weights of_word t) (m_bos m) (m_eos m) w
  end.
