(** From the files of a model and a file of audio to what the program prints. *)
From Coq Require Import ZArith List.
From Verif.Base Require Import Prelude.
From Verif.Model Require Import Arith Nnet Fst Decoder.
From Verif.Spec Require Import NnetSpec AmTextSpec DecoderSpec LoadingSpec FstSpec.
Import ListNotations.
Open Scope Z_scope.

(** The network of a model consists of [blocks], takes rows of 40 features and
    gives as many numbers as there are priors; the configuration has its
    contexts. *)
Record network_fits {G} (m : model G) (blocks : list (block Z)) : Prop := {
  nf_layers : m_layers m = flat_map block_layers blocks;
  nf_blocks : Forall well_formed blocks;
  nf_runs : runs_on 40 (m_layers m) (length (m_prior m));
  nf_left : m_left m = Z.of_nat (left_context blocks);
  nf_right : m_right m = Z.of_nat (right_context blocks);
  nf_chunk : 1 <= m_chunk m;
  nf_small : m_left m + 2 * m_right m + m_chunk m <= 2147483647
}.

Section Words.
Context {F : Type}.
Variable O : fops F.
Variable of_word : Z -> F.
Variable lm_fuel : nat.

(** The language model of a model, and caches with answers of it. *)
Inductive model_words {G} (m : model G) : option (word_model F) -> (list (Z * option (arc F)) -> Prop) -> Prop :=
| without_lm : m_lm m = None -> model_words m None (fun _ => True)
| with_lm : forall costs t table,
    m_lm m = Some (costs, t) -> init_bucket (laid_out (map_weights of_word t)) = Ok table ->
    let lm := mk_delta (map of_word costs) (laid_out (map_weights of_word t)) table (m_bos m) (m_eos m) in
    model_words m (Some (delta_words O lm_fuel lm)) (true_cache O lm_fuel lm).

(** The words of the arcs from the [states] are in the list of words. *)
Definition listed (m : model (graph F)) (states : list state) : Prop :=
  forall s a, In s states -> arc_from (m_graph m) (Datatypes.fst s) a -> output_label a <> 0 ->
    exists name, In (name, output_label a) (m_words m).
End Words.
