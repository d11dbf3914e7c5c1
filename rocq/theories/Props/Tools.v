(** Properties of the scripts that make tables of transitions, language models
    and symbol tables. *)
From Coq Require Import ZArith String List Bool.
From Verif.Base Require Import Prelude.
From Verif.Model Require Import Util File Vector Stt Python Tools SymbolTable Formats.
From Verif.Spec Require Import TextSpec AudioSpec FormatSpec ToolSpec.
From Verif.Proof Require Tools ToolsMore ToolCases ToolsWrap ToolsCut.
Import ListNotations.
Open Scope Z_scope.

(** * C79: tables of transitions *)

(** The file that is made of the transitions of a model. *)
Theorem transitions_converted : forall num_pdfs pdfs, storable pdfs ->
  convert_trans (extract_id2pdf num_pdfs pdfs) = Ok (vector_file pdfs).
Proof. exact Proof.Tools.extract_convert. Qed.
Print Assumptions transitions_converted.

(** The recognizer reads from it what the model holds. *)
Theorem transitions_read : forall num_pdfs pdfs file old, storable pdfs ->
  convert_trans (extract_id2pdf num_pdfs pdfs) = Ok file ->
  exists f, vec_read old (open file) = Ok (true, map Some pdfs, f).
Proof. exact Proof.ToolCases.extract_read. Qed.
Print Assumptions transitions_read.

(** Any listing, however its lines are ordered, spaced and ended. *)
Theorem transition_listing_converted : forall num_pdfs max_id entries ls content,
  text_file ls content -> listing num_pdfs max_id entries ls ->
  Forall (fun e => 0 <= Datatypes.fst e <= max_id) entries -> 0 <= max_id ->
  storable (table_of max_id entries) ->
  convert_trans content = Ok (vector_file (table_of max_id entries)).
Proof. exact Proof.Tools.convert_trans_ok. Qed.
Print Assumptions transition_listing_converted.

(** A transition that was not announced stops the script. *)
Theorem transition_unannounced : forall num_pdfs max_id entries ls content,
  text_file ls content -> listing num_pdfs max_id entries ls ->
  Forall (fun e => 0 <= Datatypes.fst e) entries -> 0 <= max_id ->
  Exists (fun e => max_id < Datatypes.fst e) entries ->
  convert_trans content = Fault Throw.
Proof. exact Proof.Tools.convert_trans_unannounced. Qed.
Print Assumptions transition_unannounced.

(** But one with a negative id does not: it counts from the end, as indices of
    Python do, and replaces the pdf of an announced transition. *)
Theorem transition_negative_refuted : forall num_pdfs max_id entries ls content,
  text_file ls content -> listing num_pdfs max_id entries ls ->
  Forall (fun e => - (max_id + 1) <= Datatypes.fst e <= max_id) entries -> 0 <= max_id ->
  storable (table_of max_id (map (fun e => (Datatypes.fst e mod (max_id + 1), snd e)) entries)) ->
  convert_trans content =
    Ok (vector_file (table_of max_id (map (fun e => (Datatypes.fst e mod (max_id + 1), snd e)) entries))).
Proof. exact Proof.ToolsWrap.convert_trans_wraps. Qed.
Print Assumptions transition_negative_refuted.

Example transition_negative_case :
  exists ls content, text_file ls content /\ listing 8 2 [(2, 5); (-1, 7); (1, 4)] ls /\
    table_of 2 (map (fun e => (Datatypes.fst e mod 3, snd e)) [(2, 5); (-1, 7); (1, 4)]) = [0; 4; 7].
Proof. exact Proof.ToolsWrap.wraps_case. Qed.

(** Three transitions in a listing with MS-DOS line ends, the second of them
    given twice and the first not at all. *)
Example transition_case :
  storable (table_of 3 [(3, 1); (2, 5); (1, 7); (2, 6)]) /\
  table_of 3 [(3, 1); (2, 5); (1, 7); (2, 6)] = [0; 7; 6; 1] /\
  exists ls content, text_file ls content /\ listing 8 3 [(3, 1); (2, 5); (1, 7); (2, 6)] ls /\
    convert_trans content = Ok (vector_file [0; 7; 6; 1]).
Proof. exact Proof.ToolCases.transition_case. Qed.

Example transition_unannounced_case :
  exists ls content, text_file ls content /\ listing 8 1 [(1, 7); (2, 6)] ls.
Proof. exact Proof.ToolCases.unannounced_case. Qed.

(** * C80: costs of the unigrams *)

(** Every word gets the cost of its log probability, the start of a sentence
    that of 0 and all other ids infinity. *)
Theorem unigram_costs : forall N (P : py_float N) lm vocab ls vl es higher vs xs costs ws,
  text_file ls lm -> arpa es higher ls -> no_sections higher \/ sections higher ->
  text_file vl vocab -> vocabulary vl vs ->
  NoDup (map Datatypes.fst vs) -> NoDup (map snd vs) -> Forall (fun e => 0 <= snd e) vs ->
  Forall2 (fun e x => snd e = Datatypes.fst x /\ n_parse P (Datatypes.fst e) = Some (snd x)) es xs ->
  In start_word (map Datatypes.fst vs) ->
  (forall w, In w (map Datatypes.fst xs) -> w = unk_word \/ In w (map Datatypes.fst vs)) ->
  costs_for (n_cost P) (n_inf P) vs (xs ++ [(start_word, n_zero P)]) costs ->
  Forall2 (fun c w => n_pack P c = Some w) costs ws -> storable ws ->
  convert_unigram P lm vocab = Ok (vector_file ws).
Proof. exact (fun N P => Proof.Tools.convert_unigram_ok P). Qed.
Print Assumptions unigram_costs.

(** There is exactly one such table. *)
Theorem unigram_costs_unique : forall N (cost : N -> N) inf vs xs a b, Forall (fun e => 0 <= snd e) vs ->
  costs_for cost inf vs xs a -> costs_for cost inf vs xs b -> a = b.
Proof. exact (fun N => @Proof.Tools.costs_fun N). Qed.
Print Assumptions unigram_costs_unique.

(** A word that the vocabulary lacks stops the script, unless it is the unknown
    word. *)
Theorem unigram_missing_word : forall N (P : py_float N) lm vocab ls vl es higher vs xs w,
  text_file ls lm -> arpa es higher ls -> no_sections higher \/ sections higher ->
  text_file vl vocab -> vocabulary vl vs ->
  NoDup (map Datatypes.fst vs) -> Forall (fun e => 0 <= snd e) vs ->
  Forall2 (fun e x => snd e = Datatypes.fst x /\ n_parse P (Datatypes.fst e) = Some (snd x)) es xs ->
  In w (start_word :: map Datatypes.fst xs) -> w <> unk_word -> ~ In w (map Datatypes.fst vs) ->
  convert_unigram P lm vocab = Fault Throw.
Proof. exact (fun N P => Proof.Tools.convert_unigram_missing P). Qed.
Print Assumptions unigram_missing_word.

(** So does a file without the mark of the end, wherever it was cut and whatever
    it holds. *)
Theorem unigram_incomplete : forall N (P : py_float N) ls lm vocab,
  text_file ls lm -> Forall (fun l => ~ shows l end_mark) ls -> convert_unigram P lm vocab = Fault Throw.
Proof. exact (fun N P => @Proof.ToolsCut.convert_cut N P). Qed.
Print Assumptions unigram_incomplete.

Example unigram_incomplete_case : let ls := Proof.ToolsCut.cut_lines in
  text_file ls (text ls) /\ Forall (fun l => ~ shows l end_mark) ls.
Proof. exact Proof.ToolsCut.cut_case. Qed.

(** A bigram model over the words a, b and the unknown word; b has a second
    entry, the id 1 belongs to no word, and c has no entry. *)
Example unigram_case : forall P : py_float Z,
  n_parse P = (fun s => match py_int s with Ok n => Some n | _ => None end) ->
  n_cost P = (fun n => - 23 * n) -> n_inf P = 1000000 -> n_zero P = 0 -> n_pack P = Some ->
  exists lm vocab ls vl es higher vs,
    text_file ls lm /\ arpa es higher ls /\ sections higher /\ text_file vl vocab /\ vocabulary vl vs /\
    map snd es = [start_word; [97]; unk_word; [98]; [98]] /\
    vs = [(start_word, 0); ([97], 3); ([98], 2); ([99], 4)] /\
    costs_for (n_cost P) (n_inf P) vs [(start_word, -99); ([97], -1); (unk_word, -2); ([98], -3); ([98], -4); (start_word, 0)]
      [0; 1000000; 92; 23; 1000000] /\
    convert_unigram P lm vocab = Ok (vector_file [0; 1000000; 92; 23; 1000000]).
Proof. exact Proof.ToolCases.unigram_case. Qed.

(** * C81: pruning a language model to its unigrams *)

(** Of a model with higher orders, the unigrams are kept, in order, and nothing
    else; the result is a model in the same format. *)
Theorem prune_keeps_unigrams_partial : forall pre es higher ls content, text_file (pre ++ ls) content ->
  Forall (fun l => all_blank l \/ shows l (lit "iARPA")) pre -> arpa es higher ls -> sections higher ->
  exists ls' content', prune_lm content = Ok content' /\ text_file ls' content' /\ arpa es [] ls'.
Proof. exact Proof.Tools.prune_ok. Qed.
Print Assumptions prune_keeps_unigrams_partial.

(** So nothing changes in what is made of it. *)
Theorem prune_keeps_costs : forall N (P : py_float N) es higher ls content content' vocab,
  text_file ls content -> arpa es higher ls -> sections higher ->
  prune_lm content = Ok content' -> convert_unigram P content' vocab = convert_unigram P content vocab.
Proof. exact (fun N P => Proof.Tools.prune_convert P). Qed.
Print Assumptions prune_keeps_costs.

(** But a model that has only unigrams is refused: its end mark is taken for a
    section. The result of pruning is such a model. *)
Theorem prune_unigram_model_refuted : forall pre es ls content, text_file (pre ++ ls) content ->
  Forall (fun l => all_blank l \/ shows l (lit "iARPA")) pre -> arpa es [] ls ->
  (forall a x b y c, ls = a ++ [x] ++ b ++ [y] ++ c -> shows x end_mark -> shows y end_mark -> False) ->
  prune_lm content = Fault Throw.
Proof. exact Proof.Tools.prune_unigrams_fails. Qed.
Print Assumptions prune_unigram_model_refuted.

(** And one without the mark of the end. *)
Theorem prune_incomplete : forall ls lm, text_file ls lm -> Forall (fun l => ~ shows l end_mark) ls -> prune_lm lm = Fault Throw.
Proof. exact Proof.ToolsCut.prune_cut. Qed.
Print Assumptions prune_incomplete.

Example prune_case : exists content content', prune_lm content = Ok content' /\ prune_lm content' = Fault Throw.
Proof. exact Proof.ToolCases.prune_case. Qed.

(** * C82: symbol tables *)

(** The script writes the word given last for each id, and "<empty>" for ids
    without one. *)
Theorem words_converted : forall entries ls content,
  text_file ls content -> Forall2 word_line ls entries -> Forall (fun e => 0 <= snd e) entries ->
  8 + 4 * lenZ (symbols entries) + lenZ (flat_map (fun w => w ++ [0]) (symbols entries)) <= 2147483647 ->
  exists file, convert_words content = Ok file /\ symbol_section (symbols entries) file.
Proof. exact Proof.ToolsMore.convert_words_ok. Qed.
Print Assumptions words_converted.

(** A line without exactly two columns, be it empty, stops it. *)
Theorem words_columns : forall ls content l fs,
  text_file ls content -> In l ls -> row l fs -> length fs <> 2%nat -> convert_words content = Fault Throw.
Proof. exact Proof.ToolsMore.convert_words_bad. Qed.
Print Assumptions words_columns.

Example words_case : exists ls content,
  text_file ls content /\ Forall2 word_line ls [([97], 1); ([98], 4); ([99], 1); ([100], 2)] /\
  symbols [([97], 1); ([98], 4); ([99], 1); ([100], 2)] = [empty_word; [99]; [100]; empty_word; [98]].
Proof. exact Proof.ToolCases.words_case. Qed.

(** The recognizer refuses the symbol table that the script makes. *)
Theorem converted_words_read_refuted : exists words file,
  convert_words words = Ok file /\
  sym_read symtab_init file = Ok (symtab_init, false).
Proof. exact (ex_intro _ Proof.Tools.two_words Proof.Tools.words_unreadable). Qed.
Print Assumptions converted_words_read_refuted.

(** * C85: statistics of the features *)

(** Of a matrix with 82 numbers, the first 41 are written. *)
Theorem statistics_converted : forall N (P : py_float N) content fs ns xs ws,
  file_fields content fs -> numbers_of fs ns ->
  Forall2 (fun n x => n_parse P n = Some x) ns xs -> length ns = 82%nat ->
  Forall2 (fun x w => n_pack P x = Some w) (firstn 41 xs) ws -> Forall (fits 4) ws ->
  convert_cmvn_stats P content = Ok (vector_file ws).
Proof. exact (fun N P => Proof.ToolsMore.stats_ok P). Qed.
Print Assumptions statistics_converted.

(** Any other number of numbers is refused. *)
Theorem statistics_count : forall N (P : py_float N) content fs ns xs,
  file_fields content fs -> numbers_of fs ns ->
  Forall2 (fun n x => n_parse P n = Some x) ns xs -> length ns <> 82%nat ->
  convert_cmvn_stats P content = Fault Throw.
Proof. exact (fun N P => Proof.ToolsMore.stats_count P). Qed.
Print Assumptions statistics_count.

(** A matrix with brackets around it, in three lines. *)
Example statistics_case : exists content fs ns, file_fields content fs /\ numbers_of fs ns /\
  length ns = 82%nat /\ length fs = 84%nat.
Proof. exact Proof.ToolCases.stats_case. Qed.
