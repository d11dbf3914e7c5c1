(** Lists of audio files and what should be printed for them. *)
From Coq Require Import ZArith List.
From Verif.Base Require Import Prelude.
From Verif.Model Require Import Util File Arith Pcm SymbolTable Fst Decoder Stt.
From Verif.Spec Require Import AudioSpec PcmSpec TextSpec NnetSpec DecoderSpec SttSpec TotalSpec SessionSpec LoadingSpec ProgramSpec EndSpec.
Import ListNotations.
Open Scope Z_scope.

Section Lists.
Context {F D : Type}.
Variable O : fops F.
Variable X : xops F D.
Variable tenth : F.
Variable m : model (graph F).
Variable wm : option (word_model F).
Variable good : list (Z * option (arc F)) -> Prop.
Variable blocks : list (block Z).
Variable rc : recognizer F (list (Z * option (arc F))).

(** The rows of log probabilities of a WAV file. *)
Definition wav_rows (content : bytes) (rows : list (list F)) : Prop :=
  exists bits chunk size data xs rest,
    content = wav bits chunk size data /\ wav_sizes bits chunk size /\ byte_list content /\
    AudioSpec.decodes (Z.to_nat (bits / 8)) data xs rest /\
    rows_of O rc (left_context blocks) (right_context blocks) (map (f_int O) xs) rows.

(** A file that can be decoded: a mono 16 kHz WAV file; on its rows, the decoder
    stays in [states] that fit, no collection frees words in use, costs are
    finite, and the words are known. *)
Definition decodable (content : bytes) : Prop :=
  (exists bits chunk size data xs rest,
     content = wav bits chunk size data /\ wav_sizes bits chunk size /\ byte_list content /\
     AudioSpec.decodes (Z.to_nat (bits / 8)) data xs rest) /\
  forall rows, wav_rows content rows ->
  let cfg := utt_config O tenth rc in
  exists states,
    run_fits O X cfg wm good rows states /\ (forall fuel, run_safe O X cfg fuel (rc_cache rc) rows) /\
    lively cfg states /\ finite_costs O X cfg wm rows /\ brief O X cfg wm rows /\ ends cfg states /\ listed m states.

(** [hyp] is the text of the words of a path through the decoding graph for
    these rows, or empty. *)
Definition heard (content hyp : bytes) : Prop :=
  exists rows words names,
    wav_rows content rows /\ hyp = join [32] names /\
    Forall2 (fun w name => In (name, w) (m_words m)) words names /\
    (words = [] \/ exists s c total,
       path O X (m_graph m) (m_tid2pdf m) tenth wm (rev rows) s c words /\
       ending X (m_graph m) wm true s c total /\ x_is_inf X total = false).
End Lists.
