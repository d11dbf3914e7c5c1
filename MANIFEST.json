{
 "claims": [
  {
   "property": "C01",
   "status": "proved",
   "theorems": [
    "hash_table_is_a_map",
    "hash_table_total_partial"
   ],
   "note": "Every history gives the answers of a map or ends in undefined behaviour (int overflow in the probe loop), never in an assertion failure; hash_table_total_partial excludes the overflow for moderate sizes."
  },
  {
   "property": "C02",
   "status": "proved",
   "theorems": [
    "hash_table_insert_completes",
    "hash_table_insert_two_buckets_refuted"
   ],
   "note": "Proved for all reachable tables with an odd bucket count up to 46340; the refuted theorem shows that two buckets must be excluded."
  },
  {
   "property": "C03",
   "status": "partial",
   "theorems": [
    "hash_table_find_absent_refuted",
    "hash_table_find_completes_partial"
   ],
   "note": "False in general (5 buckets, keys 5 10 15, Find 20 overflows). Proved for tables at most half full, or with a 4k+3 bucket count, below 32767 entries."
  },
  {
   "property": "C04",
   "status": "proved",
   "theorems": [
    "pool_slots_distinct"
   ],
   "note": "All histories of Alloc, Dealloc and Clear, all block sizes."
  },
  {
   "property": "C05",
   "status": "partial",
   "theorems": [
    "pool_clear_destroys_partial",
    "pool_clear_destroys_refuted"
   ],
   "note": "Every live object is destroyed once by Clear; nothing else is destroyed by the first Clear or when as many blocks are in use as ever. In general a later Clear destroys dead objects again (refuted)."
  },
  {
   "property": "C06",
   "status": "partial",
   "theorems": [
    "gc_keeps_reachable_partial",
    "gc_safe_after_growth_partial",
    "gc_keeps_reachable_refuted"
   ],
   "note": "False in general: the newest slot is never unmarked, so a second collection frees its predecessors. Proved while every collection is safe, e.g. when a new slot was used since the last one."
  },
  {
   "property": "C07",
   "status": "partial",
   "theorems": [
    "gc_frees_unreachable_partial",
    "gc_frees_unreachable_refuted"
   ],
   "note": "The node in the highest slot is never collected; all other unreachable nodes are, under safe collections."
  },
  {
   "property": "C08",
   "status": "proved",
   "theorems": [
    "trim_exact"
   ],
   "note": "All strings; the iterator one before the start of an empty string is taken as a number (strictly undefined)."
  },
  {
   "property": "C09",
   "status": "proved",
   "theorems": [
    "split_join_inverse",
    "split_of_join"
   ],
   "note": "All strings, all non-empty delimiters."
  },
  {
   "property": "C10",
   "status": "partial",
   "theorems": [
    "format_substitutes_partial",
    "format_substitutes_refuted"
   ],
   "note": "False in general: arguments are searched again. Proved when every argument but the last is non-empty and free of braces."
  },
  {
   "property": "C11",
   "status": "proved",
   "theorems": [
    "bounded_copy"
   ],
   "note": "Memory level: all sources, buffers and sizes."
  },
  {
   "property": "C12",
   "status": "proved",
   "theorems": [
    "number_exact",
    "decimal_exact",
    "decimal_garbage",
    "decimal_beyond",
    "blank_number"
   ],
   "note": "Decimal representations without leading zeros (leading zeros are octal); garbage after an embedded NUL is not seen, and 0x after a lone zero is hexadecimal."
  },
  {
   "property": "C13",
   "status": "partial",
   "theorems": [
    "read_lines_exact",
    "read_lines_partial",
    "read_lines_checked_partial",
    "read_lines_refuted",
    "long_lines_refuted"
   ],
   "note": "The plain loop reports an error when the last line has no newline, lines of 4095 bytes or more come in parts, and NUL bytes hide the rest of a part (all refuted). Proved exactly for files of any bytes what is read; the statement itself for complete texts of shorter lines without NUL bytes."
  },
  {
   "property": "C14",
   "status": "partial",
   "theorems": [
    "config_accepts_partial",
    "config_rejects_partial",
    "config_rejects_refuted",
    "config_exact"
   ],
   "note": "Full behaviour on well-formed files; every other line is rejected except key=value=, which is accepted (refuted). config_exact says for files of any bytes which are accepted and what every key gives."
  },
  {
   "property": "C15",
   "status": "proved",
   "theorems": [
    "config_paths"
   ],
   "note": "All files, names, keys; the internal marker string is excluded as a value."
  },
  {
   "property": "C16",
   "status": "proved",
   "theorems": [
    "symbol_table_consistent",
    "symbol_table_exact"
   ],
   "note": "All word files with distinct words and ids in the range of int; symbol_table_exact for files of any bytes."
  },
  {
   "property": "C17",
   "status": "partial",
   "theorems": [
    "symbol_table_safe_partial",
    "symbol_table_safe_refuted",
    "symbol_table_reports",
    "words_damage_partial"
   ],
   "note": "Negative ids write outside the table or throw (refuted); otherwise reading always ends with a status. Memory exhaustion is not modelled."
  },
  {
   "property": "C18",
   "status": "partial",
   "theorems": [
    "header_accepted_partial",
    "header_only_canonical",
    "header_total_partial",
    "header_total_refuted"
   ],
   "note": "Exactly the consistent canonical headers are accepted; false in general only because rate times width can overflow (refuted)."
  },
  {
   "property": "C19",
   "status": "partial",
   "theorems": [
    "sample_decoding_partial",
    "piece_limit",
    "sample_decoding_refuted",
    "reset_starts_afresh"
   ],
   "note": "Proved for pieces below 2^29 samples; every piece with 2^29 samples or more ends in an exception or overruns the sample vector (piece_limit, refuted)."
  },
  {
   "property": "C20",
   "status": "partial",
   "theorems": [
    "eight_bit_samples_refuted"
   ],
   "note": "False for every byte: the code decodes 8-bit samples as signed."
  },
  {
   "property": "C21",
   "status": "proved",
   "theorems": [
    "rejected_calls_leave_no_trace",
    "reset_starts_afresh"
   ],
   "note": "All histories of SetFormat, Process and Reset; also covers rejected formats."
  },
  {
   "property": "C22",
   "status": "partial",
   "theorems": [
    "stream_features_partial",
    "stream_features_refuted",
    "empty_piece_asserts"
   ],
   "note": "For any interpretation of the float operations; pieces below 536870000 samples. 2^30 samples at once overrun the buffer (refuted). The Fourier transform and the filter tables are parameters."
  },
  {
   "property": "C23",
   "status": "proved",
   "theorems": [
    "round_up_least_power"
   ],
   "note": ""
  },
  {
   "property": "C24",
   "status": "proved",
   "theorems": [
    "power_spectrum_in_place"
   ],
   "note": "For any interpretation of the float operations."
  },
  {
   "property": "C25",
   "status": "proved",
   "theorems": [
    "window_processing"
   ],
   "note": "For any interpretation of the float operations."
  },
  {
   "property": "C26",
   "status": "proved",
   "theorems": [
    "acoustic_rows",
    "acoustic_rows_converted"
   ],
   "note": "For any interpretation of the float operations; contexts and chunk within int. The network must not fail on a window. BLAS summation order is assumed to depend on row and column only."
  },
  {
   "property": "C27",
   "status": "proved",
   "theorems": [
    "converted_network_local"
   ],
   "note": "For any interpretation of the float operations; all layer lists made of single-row layers and splice+narrow pairs."
  },
  {
   "property": "C28",
   "status": "partial",
   "theorems": [
    "close_twice_refuted"
   ],
   "note": "False: closing again emits rows again."
  },
  {
   "property": "C29",
   "status": "proved",
   "theorems": [
    "softmax_distribution",
    "log_softmax_is_log",
    "softmax_shift_invariant",
    "normalize_mean_square"
   ],
   "note": "Real arithmetic."
  },
  {
   "property": "C30",
   "status": "proved",
   "theorems": [
    "vector_round_trip",
    "vector_only_own_format"
   ],
   "note": "All vectors of 32-bit words whose size in bytes fits into an int; also: nothing else is accepted."
  },
  {
   "property": "C31",
   "status": "partial",
   "theorems": [
    "matrix_round_trip",
    "matrix_truncated_partial",
    "matrix_truncated_refuted"
   ],
   "note": "False: every cut behind the first row's header is accepted (refuted for all matrices); earlier cuts are rejected."
  },
  {
   "property": "C32",
   "status": "proved",
   "theorems": [
    "network_round_trip"
   ],
   "note": "All networks of storable layers."
  },
  {
   "property": "C33",
   "status": "proved",
   "theorems": [
    "fst_round_trip",
    "fst_file_as_weights"
   ],
   "note": "All transducers with at least one arc whose section is below 2^31 bytes."
  },
  {
   "property": "C34",
   "status": "proved",
   "theorems": [
    "fst_arc_lookup"
   ],
   "note": ""
  },
  {
   "property": "C35",
   "status": "proved",
   "theorems": [
    "lm_back_off",
    "lm_back_off_unique",
    "lm_final_back_off"
   ],
   "note": "For any interpretation of the float operations, with or without the state-0 table."
  },
  {
   "property": "C36",
   "status": "proved",
   "theorems": [
    "lm_state0_table"
   ],
   "note": "For any interpretation of the float operations."
  },
  {
   "property": "C37",
   "status": "partial",
   "theorems": [
    "lm_cache_partial",
    "lm_cache_refuted"
   ],
   "note": "Proved while (589+state)*31+word stays in the range of int; the hash overflows for larger states (refuted)."
  },
  {
   "property": "C38",
   "status": "proved",
   "theorems": [
    "delta_sentence_score",
    "delta_missing_word"
   ],
   "note": "Weights from any commutative group. The weight of the <s> arc is not part of either side: the code ignores it (it assumes zero)."
  },
  {
   "property": "C39",
   "status": "proved",
   "theorems": [
    "decoder_hypothesis_is_path",
    "decoder_hypothesis_is_path_ieee",
    "decoder_no_early_loss",
    "decoder_lm"
   ],
   "note": "For any interpretation of the float and double operations whose < on double is a strict order; while every collection is safe, which holds for the first 20 frames. The reported weight is the cost of that path plus the final weight once more (C46)."
  },
  {
   "property": "C40",
   "status": "proved",
   "theorems": [
    "decoder_keeps_better",
    "decoder_frame",
    "decoder_frame_ieee"
   ],
   "note": "For any interpretation of the operations with strict <; all graphs, scores and language models, while collections are safe. Least among the costs offered within the pruning cutoffs of the frame."
  },
  {
   "property": "C41",
   "status": "proved",
   "theorems": [
    "decoder_expansion_ends",
    "decoder_start_ends",
    "decoder_expansion_ends_ieee",
    "decoder_start_ends_ieee",
    "decoder_frame",
    "decoder_initialize_partial"
   ],
   "note": "Termination for every graph, given that < on float is well-founded (it is in IEEE arithmetic) and the language model has finitely many states and does not loop itself; closedness is part of decoder_frame and decoder_initialize_partial."
  },
  {
   "property": "C42",
   "status": "partial",
   "theorems": [
    "decoder_dead_end_partial",
    "decoder_dead_end_refuted"
   ],
   "note": "The failure is reported, and the hypothesis is then empty; but every later frame is undefined behaviour (refuted)."
  },
  {
   "property": "C43",
   "status": "partial",
   "theorems": [
    "decoder_best_survives_partial",
    "decoder_best_survives_ieee_partial",
    "decoder_best_survives_refuted"
   ],
   "note": "Proved from laws of rounding (record rounding), which IEEE arithmetic has, when no arc has cost minus infinity; an arc of weight minus infinity makes the frame fail (refuted)."
  },
  {
   "property": "C44",
   "status": "proved",
   "theorems": [
    "decoder_cutoff_defined",
    "decoder_cutoff_defined_ieee"
   ],
   "note": "All beam sizes below 2^64, for any division that tells quotients apart which differ by a factor of two, such as that of IEEE arithmetic."
  },
  {
   "property": "C45",
   "status": "partial",
   "theorems": [
    "decoder_collections_partial",
    "decoder_collections_refuted"
   ],
   "note": "False in general (one word becomes -1 after the second collection, refuted); proved while every collection is safe."
  },
  {
   "property": "C46",
   "status": "partial",
   "theorems": [
    "decoder_reported_cost_partial",
    "decoder_reported_cost_refuted"
   ],
   "note": "False: the final weight is added twice (refuted); proved when final weights are neutral."
  },
  {
   "property": "C47",
   "status": "partial",
   "theorems": [
    "decoder_initialize_partial",
    "decoder_initialize_refuted"
   ],
   "note": "A second Initialize never succeeds (refuted for all configurations); proved of a new decoder."
  },
  {
   "property": "C48",
   "status": "proved",
   "theorems": [
    "decoder_finds_best",
    "decoder_finds_best_ieee"
   ],
   "note": "All graphs and language models, given a run that terminates; any arithmetic with the laws of ordered_costs, which IEEE arithmetic has on finite costs."
  },
  {
   "property": "C49",
   "status": "partial",
   "theorems": [
    "transcript_cut_partial",
    "transcript_cut_failures_partial",
    "transcript_cut_refuted"
   ],
   "note": "All recognizers and formats, any interpretation of the arithmetic, pieces below 536870000 bytes; a piece of 2^30 bytes of 8-bit audio is undefined behaviour (refuted)."
  },
  {
   "property": "C50",
   "status": "proved",
   "theorems": [
    "hypothesis_at_end",
    "hypothesis_so_far",
    "hypothesis_memory"
   ],
   "note": "The text is that of the best path of the decoder at the end, or after a multiple of 20 frames before; the memory is exactly as long as needed."
  },
  {
   "property": "C51",
   "status": "partial",
   "theorems": [
    "bad_handle_partial",
    "bad_handle_sequence_partial",
    "bad_handle_refuted"
   ],
   "note": "ce_stt_end_of_stream and ce_utt_destroy dereference a null utterance (refuted); ce_stt_process never does, and neither call fails on an utterance without internals."
  },
  {
   "property": "C52",
   "status": "proved",
   "theorems": [
    "last_error_history"
   ],
   "note": "All histories of calls that end; the buffer starts as zeros. The text of errors while loading and about headers is arbitrary."
  },
  {
   "property": "C53",
   "status": "partial",
   "theorems": [
    "matrix_places",
    "matrix_allocation_partial",
    "matrix_allocation_refuted",
    "matrix_padding_refuted",
    "matrix_write",
    "matrix_copy",
    "matrix_copy_transposed",
    "matrix_transpose",
    "matrix_range",
    "matrix_range_checked",
    "matrix_resize_copy",
    "matrix_resize_zero",
    "matrix_product"
   ],
   "note": "All dimensions whose cell numbers fit into an int, any element type; beyond that, allocation or access is undefined behaviour (refuted)."
  },
  {
   "property": "C54",
   "status": "partial",
   "theorems": [
    "quantisation_error_partial",
    "quantisation_close_refuted",
    "quantisation_gaps_refuted"
   ],
   "note": "Real arithmetic. False for positive elements that differ by less than about 255/2^31 of their size (undefined behaviour, refuted) and for destinations with gaps between rows (refuted); proved otherwise."
  },
  {
   "property": "C55",
   "status": "proved",
   "theorems": [
    "normalisation_subtracts_mean",
    "normalisation_in_order"
   ],
   "note": "Real arithmetic; requests out of order fail an assertion, in any arithmetic."
  },
  {
   "property": "C56",
   "status": "proved",
   "theorems": [
    "fft_computes_dft",
    "fft_inverse"
   ],
   "note": "Real arithmetic; all lengths from 4 to 2^30. The inverse is proved as well."
  },
  {
   "property": "C57",
   "status": "partial",
   "theorems": [
    "fft_stays_in_its_buffers_partial",
    "fft_accepts_fitting_sizes",
    "fft_ignores_work_buffer",
    "fft_back_reads_before_check_refuted"
   ],
   "note": "Any arithmetic, all lengths, data and buffers: a call succeeds or stops at an assertion. The way back reads the data before it checks their size, out of bounds when they are too short (refuted)."
  },
  {
   "property": "C58",
   "status": "partial",
   "theorems": [
    "config_integers_partial",
    "config_integers_refuted"
   ],
   "note": "Non-numeric values throw, trailing garbage is accepted (refuted)."
  },
  {
   "property": "C59",
   "status": "partial",
   "theorems": [
    "whole_file_partial",
    "file_limit",
    "whole_file_refuted"
   ],
   "note": "Proved for data below 2^29 samples; every file of 2^29 samples or more throws or overruns the vector (file_limit, refuted)."
  },
  {
   "property": "C60",
   "status": "partial",
   "theorems": [
    "stream_features_total_partial",
    "stream_features_refuted"
   ],
   "note": "Proved for pieces below 536870000 samples; 2^30 samples at once overrun the buffer (refuted)."
  },
  {
   "property": "C61",
   "status": "proved",
   "theorems": [
    "feature_row_formula"
   ],
   "note": "For any interpretation of the float operations."
  },
  {
   "property": "C62",
   "status": "proved",
   "theorems": [
    "layer_linear_formula",
    "layer_splice_formula",
    "layer_narrow_formula",
    "layer_batch_norm_formula",
    "layer_relu_formula",
    "layer_normalize_formula",
    "layer_softmax_formula",
    "layer_log_softmax_formula",
    "layers_in_order"
   ],
   "note": "For any interpretation of the float operations."
  },
  {
   "property": "C63",
   "status": "partial",
   "theorems": [
    "vector_damage_partial",
    "vector_damage_refuted",
    "matrix_damage_refuted",
    "fst_damage_partial",
    "fst_damage_refuted",
    "matrix_damage_partial",
    "network_damage_partial"
   ],
   "note": "Negative dimensions and empty matrices fail assertions, negative FST counts throw (refuted); vector reads fault for no other reason, FST reads only for negative or huge counts, matrices and whole networks only with a vector of negative dimension or a matrix of odd shape somewhere in the file."
  },
  {
   "property": "C64",
   "status": "proved",
   "theorems": [
    "program_wav"
   ],
   "note": "All files with a canonical mono 16 kHz header, all recognizers; both fail or both succeed."
  },
  {
   "property": "C65",
   "status": "partial",
   "theorems": [
    "program_list_partial",
    "program_list_unfinished",
    "program_list_refuted"
   ],
   "note": "Proved when every line ends in a newline; otherwise everything is printed but the program reports an error and exits with 1 (refuted)."
  },
  {
   "property": "C66",
   "status": "proved",
   "theorems": [
    "program_usage",
    "program_usage_text",
    "program_load_error",
    "program_unreadable",
    "program_no_list",
    "program_list_stops",
    "program_list_line"
   ],
   "note": "The texts of errors while loading and about headers are arbitrary."
  },
  {
   "property": "C67",
   "status": "partial",
   "theorems": [
    "session_total",
    "session_total_ieee",
    "session_crash_refuted",
    "session_collection_refuted"
   ],
   "note": "False: a graph without a path as long as the audio, or a collection of labels, crashes the call (refuted). Proved for graphs in which every state has an arc that consumes a frame, finite costs, paths of less than 100000 words and safe collections."
  },
  {
   "property": "C68",
   "status": "partial",
   "theorems": [
    "program_data_chunk_refuted"
   ],
   "note": "False: whatever follows the header is decoded."
  },
  {
   "property": "C69",
   "status": "partial",
   "theorems": [
    "extractor_construction",
    "constructed_extractor_total_partial",
    "stream_features_refuted"
   ],
   "note": "Any arithmetic. Missing: pieces of 536870000 samples and more, where the size of the buffer overflows (refuted)."
  },
  {
   "property": "C70",
   "status": "partial",
   "theorems": [
    "features_are_log_mel_partial",
    "mel_filters_not_empty",
    "stream_features_refuted"
   ],
   "note": "Real arithmetic. Missing: pieces of 536870000 samples and more, where the size of the buffer overflows (refuted)."
  },
  {
   "property": "C71",
   "status": "proved",
   "theorems": [
    "load_stored_model",
    "load_only_complete"
   ],
   "note": "Any arithmetic. The decoding graph is whatever is read from its file (C96). Construction of the feature extractor is assumed not to stop at an assertion (C69, C70: it does not over the reals)."
  },
  {
   "property": "C72",
   "status": "partial",
   "theorems": [
    "load_release_partial",
    "load_release_refuted"
   ],
   "note": "False: the structure itself is never released (refuted for every call); everything else is."
  },
  {
   "property": "C73",
   "status": "partial",
   "theorems": [
    "load_no_configuration",
    "load_missing_file",
    "load_missing_key_partial",
    "load_missing_key_refuted"
   ],
   "note": "False for the keys fst, symbol_table and original_lm, whose message does not name the configuration file (refuted); proved otherwise."
  },
  {
   "property": "C74",
   "status": "partial",
   "theorems": [
    "load_total_refuted",
    "load_negative_prior_refuted",
    "load_no_number_refuted",
    "load_faults_partial"
   ],
   "note": "False: a negative prior fails an assertion, a number that is none ends in an exception. load_faults_partial: for files of any bytes every crash has one of the causes listed in Spec/LoadFaultSpec.v, which also says how it crashes."
  },
  {
   "property": "C75",
   "status": "proved",
   "theorems": [
    "ieee_arithmetic",
    "decoder_hypothesis_is_path_ieee",
    "decoder_frame_ieee",
    "decoder_expansion_ends_ieee",
    "decoder_start_ends_ieee",
    "decoder_cutoff_defined_ieee",
    "decoder_best_survives_ieee_partial",
    "decoder_finds_best_ieee"
   ],
   "note": "SpecFloat of the Coq standard library as IEEE 754; each operation rounded once. The language model has to end by itself and to have finitely many states; collections have to be safe (C45)."
  },
  {
   "property": "C76",
   "status": "proved",
   "theorems": [
    "decoder_total",
    "decoder_succeeds",
    "decoder_total_ieee",
    "decoder_succeeds_ieee",
    "large_states_refuted"
   ],
   "note": "The bound on hash values is needed: beyond it decoding is undefined (refuted). Any arithmetic with the laws of Props/Ieee.v's ieee_arithmetic, and IEEE 754. Collections of labels have to be safe (C45); paths have to have less than 100000 words for a hypothesis."
  },
  {
   "property": "C77",
   "status": "proved",
   "theorems": [
    "session_total",
    "session_total_ieee"
   ],
   "note": "The recognizer is given: features exist for the windows of the audio, the network gives one row per window, words have symbols, collections of labels are safe (C45), paths have less than 100000 words."
  },
  {
   "property": "C78",
   "status": "partial",
   "theorems": [
    "audio_features_finite_partial",
    "audio_is_sampled",
    "audio_session_total",
    "audio_has_features_partial",
    "stream_features_refuted"
   ],
   "note": "SpecFloat of the Coq standard library as IEEE 754. Pieces of 536870000 samples and more, where the size of the buffer overflows, are missing (refuted). audio_has_features_partial (uses the axioms of the real numbers) has no condition on construction: it succeeds with every logf within a thousandth of the logarithm (C87)."
  },
  {
   "property": "C79",
   "status": "proved",
   "theorems": [
    "transitions_converted",
    "transitions_read",
    "transition_listing_converted",
    "transition_unannounced",
    "transition_negative_refuted"
   ],
   "note": "For ids from 0 on, as the statement says; negative ids replace the pdfs of other transitions (transition_negative_refuted). The model of Python is ASCII; of the C++ program only what it prints is modelled."
  },
  {
   "property": "C80",
   "status": "proved",
   "theorems": [
    "unigram_costs",
    "unigram_costs_unique",
    "unigram_missing_word",
    "unigram_incomplete"
   ],
   "note": "Any interpretation of Python's float; ASCII."
  },
  {
   "property": "C81",
   "status": "partial",
   "theorems": [
    "prune_keeps_unigrams_partial",
    "prune_keeps_costs",
    "prune_unigram_model_refuted",
    "prune_incomplete"
   ],
   "note": "False: a model without higher orders is refused, so the result of pruning cannot be pruned again (refuted for all such models). Proved for all models with higher orders."
  },
  {
   "property": "C82",
   "status": "partial",
   "theorems": [
    "words_converted",
    "words_columns",
    "converted_words_read_refuted"
   ],
   "note": "False: the script writes a binary section, the recognizer reads lines of text and refuses it (refuted). What the script writes is proved."
  },
  {
   "property": "C83",
   "status": "partial",
   "theorems": [
    "model_converted_partial",
    "converted_model_read",
    "model_converted_refuted"
   ],
   "note": "False for nodes that are named differently from their components (refuted); proved otherwise. Any interpretation of Python's float and numpy; ASCII."
  },
  {
   "property": "C84",
   "status": "partial",
   "theorems": [
    "fitting_network_runs",
    "running_network_passes_partial",
    "passing_network_runs_refuted"
   ],
   "note": "False: the length of a bias is not checked (refuted). Proved: whatever runs passes, and a network whose parts fit passes and runs."
  },
  {
   "property": "C85",
   "status": "proved",
   "theorems": [
    "statistics_converted",
    "statistics_count"
   ],
   "note": "Any interpretation of Python's float; ASCII."
  },
  {
   "property": "C86",
   "status": "partial",
   "theorems": [
    "files_to_text_partial",
    "files_print_words_partial",
    "files_print_words_refuted"
   ],
   "note": "False in general (refuted): with 22 frames of audio the program prints \"what what\" where \"so what\" was said, the words of no path. Proved as long as no collection frees words in use (C45; always so up to 20 frames) and the costs stay finite; files_print_words_partial (uses the axioms of the real numbers) asks of logf to be within a thousandth of the logarithm, files_to_text_partial that the extractor can be constructed with it; the states the decoder can reach are few enough, have arcs with input and known words."
  },
  {
   "property": "C87",
   "status": "proved",
   "theorems": [
    "extractor_constructed",
    "extractor_needs_logf"
   ],
   "note": "SpecFloat of the Coq standard library as IEEE 754; extractor_constructed uses the standard library's axioms of the real numbers."
  },
  {
   "property": "C88",
   "status": "partial",
   "theorems": [
    "graph_converted",
    "graph_converted_only",
    "converted_graph_read_partial",
    "converted_graph_read_refuted"
   ],
   "note": "The transducer is given as pywrapfst presents it; weights are abstract numbers. Reading back is proved for transducers with at least one arc; one without arcs is written and then refused (refuted). The text output of the script is not modelled."
  },
  {
   "property": "C89",
   "status": "partial",
   "theorems": [
    "scripts_make_models",
    "scripts_print_words_partial"
   ],
   "note": "That the files hold the model meant is proved in full; the text is as in C86: as long as no collection frees words in use (C45). Any interpretation of Python's float and numpy; the symbol table is the list of words itself, since the output of the script for it is refused (C82). That this condition is needed is files_print_words_refuted (C86); for graphs of single words it always holds (C105)."
  },
  {
   "property": "C90",
   "status": "partial",
   "theorems": [
    "list_prints_words_partial"
   ],
   "note": "Conditions of C86 for every file (no collection frees words in use, C45); every line of the list ends in a newline (C65). That this condition is needed is files_print_words_refuted (C86); for graphs of single words it always holds (C105)."
  },
  {
   "property": "C91",
   "status": "partial",
   "theorems": [
    "quantised_product_partial",
    "quantised_product_close_refuted",
    "integer_product_exact",
    "integer_product_outside_refuted",
    "integer_product_single_refuted",
    "integer_product_gaps_refuted"
   ],
   "note": "False for matrices with gaps between their rows (the layout kDefaultStride), for factors that are a single number, and for sums that do not fit into 32 bits, as happens for elements close to one another (all refuted); proved otherwise. The theorems about real numbers use the standard library's axioms of the reals."
  },
  {
   "property": "C92",
   "status": "partial",
   "theorems": [
    "vectors_are_values",
    "assigned_vectors_freed_refuted",
    "large_vector_refuted"
   ],
   "note": "False in two ways (refuted): move assignment loses the memory of the vector assigned to, and for 2^30 numbers of 4 bytes no memory is allocated. Proved for all sequences of calls otherwise, with the exact number of blocks that assignments lose."
  },
  {
   "property": "C93",
   "status": "proved",
   "theorems": [
    "utterances_undisturbed",
    "faults_are_of_one_utterance",
    "sessions_at_once",
    "last_error_of_program",
    "early_destruction"
   ],
   "note": "One thread; handles are not copied by the program (a handle is used under one name). What ce_stt_init makes of a configuration file is a parameter here (C71)."
  },
  {
   "property": "C94",
   "status": "partial",
   "theorems": [
    "matrices_are_values",
    "copied_matrix_refuted",
    "transposed_onto_itself_refuted"
   ],
   "note": "False in two ways (refuted): the constructor and assignment that the compiler adds share memory that is then freed twice, and a matrix copied transposed onto itself loses elements. Proved for all sequences of calls otherwise, of matrices up to 2^31-1 elements."
  },
  {
   "property": "C95",
   "status": "proved",
   "theorems": [
    "load_damaged_configuration",
    "load_damaged_words",
    "load_only_intact"
   ],
   "note": "Any interpretation of the float operations. The text of the error is that of the failed read, a parameter per file name. Ids that are negative or beyond the size limit of a vector crash (C17) and are excluded as the statement says."
  },
  {
   "property": "C96",
   "status": "partial",
   "theorems": [
    "graph_file_read",
    "load_all_files",
    "all_files_print_words_partial"
   ],
   "note": "Reading and loading are proved in full. The printed text is as in C86: as long as no collection frees words in use (C45); it uses the axioms of the real numbers. That this condition is needed is files_print_words_refuted (C86); for graphs of single words it always holds (C105). C112 has conditions on the files alone."
  },
  {
   "property": "C97",
   "status": "partial",
   "theorems": [
    "graph_file_exact",
    "graph_missing",
    "graph_truncated",
    "graph_no_magic",
    "graph_unknown",
    "graph_faults_partial",
    "graph_outside_refuted",
    "graph_overrun_refuted",
    "graph_negative_states_refuted",
    "graph_wrong_numbers_refuted"
   ],
   "note": "False in four ways (refuted): arcs of a state outside the table are undefined behaviour, as are 2^60-1 arcs; a negative number of states ends in an exception; numbers that agree with the tables modulo 2^32 (states) or 2^60 (arcs) are accepted. Exactly which files are accepted and which faults can occur is proved."
  },
  {
   "property": "C98",
   "status": "partial",
   "theorems": [
    "file_objects",
    "borrowed_streams",
    "files_closed_partial",
    "files_closed_refuted",
    "files_closed_borrowed_refuted"
   ],
   "note": "False in two ways (refuted): Open on an object that has a file, and Open on an object with a borrowed stream, lose a stream for good. Proved for all sequences of calls in which Open comes only for objects without a file; the other parts for all sequences. Objects are destroyed in the reverse order of their construction, as local variables are."
  },
  {
   "property": "C99",
   "status": "proved",
   "theorems": [
    "loading_files",
    "audio_file_closed"
   ],
   "note": "Any interpretation of the float operations. Loads that crash (C74) are excluded: they have no end. OpenFst's stream is closed at the end of its reader."
  },
  {
   "property": "C100",
   "status": "proved",
   "theorems": [
    "program_files"
   ],
   "note": "Any interpretation of the float operations. For lists in which every line ends in a newline (C65) the names are those of the list."
  },
  {
   "property": "C101",
   "status": "partial",
   "theorems": [
    "parts_partial",
    "other_parts_unchanged",
    "parts_in_any_order",
    "lists_for_loops",
    "parts_overlapping_refuted",
    "parts_product_refuted",
    "parts_origin_refuted",
    "parts_place_refuted",
    "parts_length_refuted"
   ],
   "note": "False in five ways (refuted): negative origins and places lead out of the part; negative lengths are accepted and then undefined for SetZero; copying between overlapping parts and adding one to the other, even a vector to itself, is undefined; a part multiplied by one that begins before it and overlaps it uses new values. Proved for all other programs. Contraction of a product and a sum into one operation is not modelled."
  },
  {
   "property": "C102",
   "status": "partial",
   "theorems": [
    "error_texts",
    "error_names_file_partial",
    "error_names_file_refuted",
    "brace_name_refuted",
    "vector_texts",
    "network_texts",
    "lm_texts",
    "texts_only"
   ],
   "note": "Which text appears when is proved in full (error_texts). That it names the file at fault is false (refuted) for the keys fst, symbol_table and original_lm, for lines of words files, missing sentence symbols, splice layers of negative length and the size of the language model, and for a configuration whose name has {} in it; proved otherwise. For damaged vectors, networks and language models error_texts says that the text names the file; which text it is, is proved for files that are cut short (vectors, language models), of another kind and of another size (vectors)."
  },
  {
   "property": "C103",
   "status": "partial",
   "theorems": [
    "header_texts",
    "header_texts_only",
    "align_text_refuted"
   ],
   "note": "False for the block alignment (refuted): the value shown as found is the byte rate. Proved for the other fields, and with that value for the block alignment. ce_read_pcm_header reads from a stream without a name, so the texts end without one."
  },
  {
   "property": "C104",
   "status": "proved",
   "theorems": [
    "format_refused",
    "format_texts",
    "audio_refused",
    "handle_refused"
   ],
   "note": "The buffer of the message has 2048 bytes. A null format argument of ce_utt_init is not modelled."
  },
  {
   "property": "C105",
   "status": "proved",
   "theorems": [
    "slow_words_safe",
    "slow_words_when",
    "slow_hypothesis",
    "command_hypothesis",
    "command_session",
    "command_prints",
    "two_words_refuted"
   ],
   "note": "The last sentence of the statement is two_words_refuted. Sessions and the program have the other conditions of C86 (finite costs, states that fit the hash function); command_prints uses the axioms of the real numbers."
  },
  {
   "property": "C106",
   "status": "proved",
   "theorems": [
    "moderate_finite",
    "moderate_brief",
    "sound_graph_fits",
    "rows_width",
    "plain_prints"
   ],
   "note": "Single precision. The log probabilities of the network are asked to be at most 2^100 (see C107 for when they are); plain_prints is for graphs of single words without a language model and uses the axioms of the real numbers."
  },
  {
   "property": "C107",
   "status": "proved",
   "theorems": [
    "log_softmax_finite",
    "log_softmax_overflow",
    "log_softmax_underflow",
    "mild_prints",
    "loud_prints_refuted",
    "loud_decoder_refuted"
   ],
   "note": "Single precision (SpecFloat). exp and log are any functions within coarse bounds that every math library meets (Spec/ExpSpec.v). The last sentence of the statement is loud_prints_refuted, which says that the run is a fault for every bound on loops from 50 on; loud_decoder_refuted says which fault it is in the decoder. mild_prints is for graphs of single words without a language model; it and loud_prints_refuted use the axioms of the real numbers."
  },
  {
   "property": "C108",
   "status": "proved",
   "theorems": [
    "linear_layer_built",
    "linear_layer_refused",
    "batch_norm_built",
    "pointer_matrix",
    "pointer_matrix_checked",
    "matrix_scaled"
   ],
   "note": "Props/Build.v also holds the project's own tests of layers, graph, configuration and collection of garbage, evaluated in the model. The end of the caller's memory is a hypothesis of pointer_matrix, as the constructor cannot know it."
  },
  {
   "property": "C109",
   "status": "proved",
   "theorems": [
    "sound_lm_words",
    "sound_lm_fits",
    "sound_lm_moderate",
    "lm_prints",
    "mild_lm_prints",
    "lm_prints_here"
   ],
   "note": "Single precision from sound_lm_moderate on; the others for any interpretation of the float operations. The bound on the depth of back-off (lm_fuel) is asked to be at least the number of states, so that it is never reached. Graphs of single words, as in C106 and C107; lm_prints and what follows use the axioms of the real numbers. lm_prints_here runs the program on files with a language model, so that the hypotheses are seen to be met together."
  },
  {
   "property": "C110",
   "status": "proved",
   "theorems": [
    "checked_prints",
    "checked_list_prints",
    "checked_prints_here"
   ],
   "note": "Single precision (SpecFloat); uses the axioms of the real numbers. The conditions are those of Spec/CheckedSpec.v; all but the one on activations are about the files alone. Limited length: (frames + 1) * (k + 1) < 100000 for chains of at most k arcs that consume nothing. Every line of the list ends in a newline (C65). That the limit of 20 frames for graphs with paths of several words is needed is files_print_words_refuted (C86)."
  },
  {
   "property": "C111",
   "status": "proved",
   "theorems": [
    "close_finds_best",
    "close_best_hypothesis",
    "close_prints",
    "close_list_prints",
    "checked_best_prints",
    "checked_best_list_prints"
   ],
   "note": "Single precision (SpecFloat). close_prints and close_list_prints have the conditions of C86 on each recording; checked_best_prints and checked_best_list_prints have those of C110 on the model instead. Every line of a list ends in a newline (C65). What the program prints uses the axioms of the real numbers."
  },
  {
   "property": "C112",
   "status": "proved",
   "theorems": [
    "whole_prints",
    "whole_list_prints",
    "whole_best_prints",
    "whole_best_list_prints",
    "whole_best_prints_here"
   ],
   "note": "Single precision (SpecFloat); uses the axioms of the real numbers. Conditions as in C110 and, for the last part, C111; every line of a list ends in a newline (C65). whole_best_prints_here computes what is printed for one model and a list of two recordings, for every math library within the bounds of C87."
  },
  {
   "property": "C113",
   "status": "proved",
   "theorems": [
    "chartok_lines",
    "chartok_last_line",
    "chartok_every_text",
    "chartok_one_way",
    "chartok_idempotent",
    "chartok_keeps",
    "chartok_utf8",
    "chartok_utf8_one_way",
    "chartok_printed"
   ],
   "note": "Up to chartok_keeps text is a list of code points; chartok_utf8 goes on to bytes. Input that is not UTF-8 is left out. Blanks are those of Perl 5.18 and later."
  },
  {
   "property": "C114",
   "status": "proved",
   "theorems": [
    "graph_text",
    "graph_text_tells"
   ],
   "note": "How Python shows a float is a parameter. The transducer is given as pywrapfst presents it, as in C88."
  },
  {
   "property": "C115",
   "status": "proved",
   "theorems": [
    "list_characters",
    "list_best_characters",
    "characters_here"
   ],
   "note": "Single precision (SpecFloat); uses the axioms of the real numbers. Conditions as in C112; the script as in C113. characters_here computes the result for one model and list."
  }
 ]
}