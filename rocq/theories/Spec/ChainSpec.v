(** Models as Kaldi leaves them, the files that the scripts make of them, and
    the models of the recognizer that these stand for. *)
From Coq Require Import ZArith String List.
From Verif.Base Require Import Prelude.
From Verif.Model Require Import Arith File Nnet Fst Decoder Stt Python Tools ConvertAm ConvertFst.
From Verif.Spec Require Import TextSpec AudioSpec AmSpec FormatSpec ToolSpec NnetSpec AmTextSpec FstSpec ConvertFstSpec LoadingSpec.
Import ListNotations.
Open Scope Z_scope.

(** The decoding graph; the text of the acoustic model; its number of pdfs and
    the pdf of every transition; the size of chunks; the words; perhaps a
    language model in the ARPA format, a vocabulary and a transducer made of a
    larger language model. *)
Record kaldi (G N : Type) : Type := mk_kaldi {
  k_graph : G;
  k_am : str;
  k_num_pdfs : Z;
  k_pdfs : list Z;
  k_chunk : Z;
  k_words : list (str * Z);
  k_bos : Z;
  k_eos : Z;
  k_lm : option (str * str * transducer N)
}.
Arguments mk_kaldi {G N}. Arguments k_graph {G N}. Arguments k_am {G N}. Arguments k_num_pdfs {G N}. Arguments k_pdfs {G N}.
Arguments k_chunk {G N}. Arguments k_words {G N}. Arguments k_bos {G N}. Arguments k_eos {G N}. Arguments k_lm {G N}.

Section Chain.
Context {F N : Type}.
Variable O : fops F.
Variable of_word : Z -> F.
Variable P : py_float N.
Variable sc : N -> N -> N -> N.
Variable off : N -> N -> N.
Variable files : str -> option str.
Variable hclg : str -> res (option (graph F)).

(** The acoustic model with the text [s] is the network [blocks] with [prior];
    with their numbers stored as words, these are [ls'] and [prior']. *)
Definition acoustic (s : str) (blocks : list (block N)) (prior : list N) (ls' : list (layer Z)) (prior' : list Z) : Prop :=
  exists nodes comps layer_of,
    model_text (fun s x => n_parse P s = Some x) (n_zero P) sc off nodes comps prior s /\ ~ In 13 s /\
    same_names nodes /\ assembled layer_of nodes comps /\ blocks = node_blocks layer_of nodes /\
    Forall2 (stored_layer (fun x w => n_pack P x = Some w)) (flat_map block_layers blocks) ls' /\ Forall storable_layer ls' /\
    Forall2 (fun x w => n_pack P x = Some w) prior prior' /\ storable prior' /\ moderate blocks.

(** The unigrams of a language model give these costs, stored as words. *)
Definition unigram_words (lm vocab : str) (ws : list Z) : Prop :=
  exists ls vl es higher vs xs costs,
    text_file ls lm /\ arpa es higher ls /\ (no_sections higher \/ sections higher) /\
    text_file vl vocab /\ vocabulary vl vs /\
    NoDup (map Datatypes.fst vs) /\ NoDup (map snd vs) /\ Forall (fun e => 0 <= snd e) vs /\
    Forall2 (fun e x => snd e = Datatypes.fst x /\ n_parse P (Datatypes.fst e) = Some (snd x)) es xs /\
    In start_word (map Datatypes.fst vs) /\
    (forall w, In w (map Datatypes.fst xs) -> w = unk_word \/ In w (map Datatypes.fst vs)) /\
    costs_for (n_cost P) (n_inf P) vs (xs ++ [(start_word, n_zero P)]) costs /\
    Forall2 (fun c w => n_pack P c = Some w) costs ws /\ storable ws.

(** [m] is what is meant by [k]: its network takes rows of 40 features and gives
    one number for each prior. *)
Record meant (k : kaldi (graph F) N) (blocks : list (block N)) (m : model (graph F)) : Prop := {
  mt_graph : m_graph m = k_graph k;
  mt_am : exists prior, acoustic (k_am k) blocks prior (m_layers m) (m_prior m) /\
            runs_on 40 (flat_map block_layers blocks) (length prior);
  mt_prior : Forall (fun w => f_nonneg O (of_word w) = true) (m_prior m);
  mt_left : m_left m = Z.of_nat (left_context blocks);
  mt_right : m_right m = Z.of_nat (right_context blocks);
  mt_chunk : m_chunk m = k_chunk k /\ 1 <= k_chunk k;
  mt_small : m_left m + 2 * m_right m + m_chunk m <= 2147483647;
  mt_pdfs : m_pdfs m = k_num_pdfs k;
  mt_tid2pdf : m_tid2pdf m = k_pdfs k /\ storable (k_pdfs k);
  mt_words : m_words m = k_words k /\ m_bos m = k_bos k /\ m_eos m = k_eos k;
  mt_lm : match k_lm k, m_lm m with
          | None, None => True
          | Some (lm, vocab, t), Some (costs, t') =>
              unigram_words lm vocab costs /\ packed (n_pack P) t t' /\ fst_fits t' /\ 0 < number_of_arcs t /\ back_off_model t
          | _, _ => False
          end
}.

(** The configuration file [fn] names files that were made by the scripts. *)
Definition made_by_scripts (fn : str) (k : kaldi (graph F) N) (blocks : list (block N)) : Prop :=
  exists content lines, files fn = Some content /\ config_lines content lines /\
    (exists p, points_to fn lines (lit "fst") p /\ hclg p = Ok (Some (k_graph k))) /\
    (exists network prior, convert_am P sc off (k_am k) = Ok (network, prior) /\
       stored_at files fn lines (lit "nnet") (eq network) /\ stored_at files fn lines (lit "prior") (eq prior)) /\
    number lines (lit "left_context") (Z.of_nat (left_context blocks)) /\
    number lines (lit "right_context") (Z.of_nat (right_context blocks)) /\
    number lines (lit "chunk_size") (k_chunk k) /\
    number lines (lit "num_pdfs") (k_num_pdfs k) /\
    (exists table, convert_trans (extract_id2pdf (k_num_pdfs k) (k_pdfs k)) = Ok table /\
       stored_at files fn lines (lit "tid2pdf") (eq table)) /\
    stored_at files fn lines (lit "symbol_table") (words_file (k_words k) (k_bos k) (k_eos k)) /\
    match k_lm k with
    | None => last_value lines (lit "large_lm") None
    | Some (lm, vocab, t) =>
        (exists costs, convert_unigram P lm vocab = Ok costs /\ stored_at files fn lines (lit "original_lm") (eq costs)) /\
        (exists large, convert_fst P (t_start t) (t_states t) = Ok large /\ stored_at files fn lines (lit "large_lm") (eq large))
    end.
End Chain.
