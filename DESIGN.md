# Formal model of CatEars: design

This directory holds a machine-checked model of CatEars (speech-to-text, `/repo/src`) in Coq 8.16.1
and proofs of the properties in `properties.jsonl`.

## Layout

| directory | content |
|---|---|
| `rocq/theories/Base` | outcomes, bytes, 32-bit integers, list lemmas |
| `rocq/theories/Model` | executable model of the code, one file per source file; definitions only, every definition cites file and lines |
| `rocq/theories/Spec` | small independent specifications (association maps, windows of a sequence, joins, paths of a graph, ...) |
| `rocq/theories/Proof` | lemmas |
| `rocq/theories/Props` | the property theorems only; each is closed by `exact some_lemma`, followed by `Print Assumptions`, with a concrete non-trivial instance beside it |
| `MANIFEST.json` | property -> theorem names and status |
| `seeded/LOG.jsonl` | results of editing the model like a bug and rebuilding |

## How the code is modelled

* **Outcomes.** A C++ call is a function into `res A`: `Ok a`, or `Fault f` where `f` is
  `Undef` (undefined behaviour: out-of-range index, signed overflow, null dereference, ...),
  `Assert` (a failed `assert`; the build files define no `NDEBUG`, so asserts are live),
  `Throw` (a C++ exception leaves the function), or `Fuel` (the model's loop bound ran out: the
  loop did not finish within the bound; theorems that claim termination exclude it).
* **Integers** are `Z`; `int32_t` reads, truncations and wraps are explicit. Where signed overflow
  is possible and matters it is an explicit `Undef`.
* **Bytes** are `Z` in 0..255; files are byte lists with a position and an end-of-file flag.
* **Floating point.** Structure-only properties (what is computed from what, in which order) are
  proved for *every* interpretation of the floating-point operations: the operations are fields of a
  record the theorem quantifies over, so IEEE arithmetic is one instance. Properties that need laws
  of arithmetic state the laws they need or are about exact (real or rational) arithmetic; the
  theorem says which. Model/Ieee.v is the IEEE 754 instance (binary32 and binary64 from
  `Coq.Floats.SpecFloat`, which has no axioms; rounding to nearest even, each operation rounded once,
  no fused operations; functions of libm and the BLAS product are parameters). Proof/IeeeLaws.v shows
  that it has the laws the decoder's theorems ask for, and Props/Ieee.v states these theorems without
  arithmetic hypotheses.
* **Pointers.** Pool slots are addresses (block, position); heaps are maps from addresses.
* **Containers.** `std::vector`/`deque` are lists, `unordered_map` an association map
  (iteration order is never used by the code modelled).

Bugs are modelled as they are. Where the faithful model violates a property of the list, the property
theorem for the largest correct part is proved (name ends in `_partial`) and the violation is proved
with a concrete witness (name ends in `_refuted`).

## Trusted base

* Coq's kernel (and `coqchk`), version 8.16.1.
* `Coq.Floats.SpecFloat` as the meaning of `float` and `double` (Props/Ieee.v, Props/Finite.v, Props/EndToEnd.v, Props/Extractor.v, Props/Chain.v, Props/EndList.v, Props/ConstFst.v (`all_files…`), Props/Plain.v, Props/Exp.v, Props/LmPlain.v, Props/Checked.v, Props/Close.v, Props/Whole.v, Props/Characters.v and the theorems ending in `_ieee` in Props/Total.v only).
* The reading of the C++ source: the model is hand-written, the code is not executed.
* Standard library semantics as modelled (`fread`, `fgets`, `strtol`, `std::lower_bound`,
  `std::nth_element`, `unordered_map`, `vector::resize`).
* Axioms. `Print Assumptions` under every theorem says "Closed under the global context", except in
  Props/Softmax.v, Props/Cmvn.v, Props/Quantize.v, Props/Gemm.v (`quantised_product…`), Props/Fft.v (C56), Props/Mel.v (C70), Props/Extractor.v (C87, except `extractor_needs_logf`) Props/Chain.v (`scripts_print_words_partial`), Props/ConstFst.v (`all_files_print_words_partial`), Props/Command.v (`command_prints` and its case), Props/Plain.v (`plain_prints`), Props/Exp.v (`mild_prints`, `loud_prints_refuted`), Props/LmPlain.v (`lm_prints`, `mild_lm_prints`, `lm_prints_here`), Props/Checked.v (all but `checked_case`), Props/Close.v (all but `close_finds_best`, `close_best_hypothesis` and their case), Props/Whole.v, Props/Characters.v, Props/EndRefuted.v and Props/EndList.v, which are about real numbers,
  and the concrete models over real numbers in Props/Loading.v (`load_stored_model_case`,
  `load_missing_file_case`, `load_missing_key_case`, `load_damaged_case`, `load_total_refuted`) and Props/LoadFault.v (`load_faults_partial_case`). There it lists
  axioms of the Coq standard library: `ClassicalDedekindReals.sig_forall_dec`,
  `ClassicalDedekindReals.sig_not_dec` and `FunctionalExtensionality.functional_extensionality_dep`
  (the construction of the reals), and `Classical_Prop.classic` (used by the library's lemmas on
  `exp`, `ln` and `sqrt`). `normalisation_in_order` is closed.

Not modelled: of the vendored `src/openfst` everything but the reading of constant transducers with
standard arcs from a file (Model/ConstFst.v; the decoder sees a transducer: start, arcs per
state in iteration order, final weight), the packing and kernels of the vendored `src/gemmlowp` (their sums are in Model/Gemm.v), `cblas_sgemm` (a row-wise product),
rounding of `logf/cosf/expf`, memory exhaustion, threads.

## Plan per property
* **C01 Hash table behaves as a map.** Model/HashTable.v: the arrays `buckets_`/`empty_`, probe loop with fuel, growth. Proof: invariant (stored keys distinct, each key's probe sequence passes only occupied slots before its slot) preserved by all operations; refinement to a finite map for every history, as long as no operation faults.
* **C02 Hash table insertion always completes.** Counting argument: for an odd prime p the numbers i*i mod p, 1<=i<=(p-1)/2, are pairwise distinct, and i=p gives the home slot, so at least (p+1)/2 slots are probed before any overflow; the load check leaves fewer occupied.
* **C03 Looking up an absent key always completes.** Refuted with a 5-bucket table and with a 2-bucket table; proved for 4k+3 primes and for every table at most half full (`_partial`).
* **C04 Pool hands out distinct live slots.** Model/Pool.v: blocks, free list, bump pointer. Invariant over all histories: live slots = slots below the bump pointer minus the free list, no duplicates; Alloc returns a slot outside the live set.
* **C05 Pool destroys every object exactly once.** Same model with a constructed/destroyed ghost set; refuted for Clear followed by fewer allocations; proved for histories without an earlier Clear (or whose current block is the last block) as `_partial`.
* **C06 Garbage collection keeps every reachable node.** GC as in the code, including the bound current_pos_-1. Refuted by two collections with the same root; proved when the newest slot carries no stale mark (`_partial`).
* **C07 Garbage collection frees unreachable nodes.** Same; the newest slot is never collected (refuted), every other unreachable node is (`_partial`).
* **C08 Trim removes exactly the surrounding white space.** Model/Util.v Trim with iterators as indices; spec: decomposition of the string.
* **C09 Split is inverse to joining.** Split with find; spec: join.
* **C10 Format substitutes arguments in order.** Format as repeated first-occurrence replacement; proved for arguments without `{}` against a simultaneous-substitution spec; refuted in general.
* **C11 Bounded string copy.** pasco_strlcpy on a byte-array memory with bounds; spec: firstn/skipn.
* **C12 Decimal word ids are parsed exactly.** strtol base 0 as in C; round trip with a decimal printer for all longs; leading-zero input refuted as decimal; numbers beyond the range and blank text.
* **C13 Line reading recovers the lines of a file.** ReadableFile with position and EOF flag, fgets of 4096; loops of SymbolTable::Read/Configuration::Read. Spec: lines of a text. Missing final newline: refuted for the loop without an Eof check; long lines and NUL bytes: refuted. Files of any bytes: exactly what is read.
* **C14 Configuration files are parsed faithfully.** Configuration::Read over the file model; spec: last matching line.
* **C15 Configuration paths are resolved against the configuration file.** GetPathOrElse; spec: dirname join.
* **C16 Symbol table maps ids and words consistently.** SymbolTable::Read; spec: association list.
* **C17 Symbol table reading never corrupts memory.** `Undef` outcome in the model; refuted with id -1; absence of `Undef` proved when all ids are non-negative (`_partial`).
* **C18 WAV header acceptance.** ReadPcmHeader on byte lists; characterisation both ways.
* **C19 Sample decoding does not depend on how bytes arrive.** WaveReader; induction over the list of pieces.
* **C20 8-bit samples are decoded as WAV prescribes.** Refuted: byte 0x80 decodes to -128.
* **C21 Rejected audio calls leave the stream intact.** Failing calls leave the state; by cases.
* **C22 Frame count and frame content of streaming features.** Fbank::Process with an abstract per-frame function; induction over the pieces.
* **C23 Rounding up to a power of two.** Bit-level lemma on or-shift cascades.
* **C24 In-place power spectrum.** In-place loop model on lists; index reasoning.
* **C25 Window processing formula.** In-place loops with abstract arithmetic.
* **C26 Acoustic model emits one row per frame, independent of the chunk size.** AcousticModel with an abstract network satisfying the locality law; invariant on the buffer.
* **C27 Converted networks have a bounded receptive field.** Layers as functions on lists of rows; locality by induction over the stack, clamping shown inert.
* **C28 Closing the acoustic stream twice.** Refuted: a second call emits rows again.
* **C29 Softmax layers give probability distributions.** Model/Exact.v instantiates the operations by real numbers; the formulas of C62 are specialised to them.
* **C30 Vector files round-trip.** Vector::Read over the file model; writer from the converter.
* **C31 Truncated or damaged matrix files are rejected.** Matrix::Read ignoring the row status; refuted with a truncated file; `_partial`: success implies the declared shape, and intact files round-trip.
* **C32 Network files round-trip.** Nnet::Read / writer round trip.
* **C33 FST files round-trip.** Fst::Read / writer / IterateArcs round trip. Zero arcs: refuted (a zero-byte read is an error).
* **C34 Arc lookup by input label.** lower_bound model; sorted arcs.
* **C35 Language model lookup implements back-off.** Fuelled recursion; spec by walking the chain.
* **C36 State-0 shortcut is transparent.** InitBucket0 model; equivalence.
* **C37 Language model cache is transparent.** Cache invariant over histories.
* **C38 Delta language model scores.** Exact arithmetic; telescoping.
* **C39 Hypotheses are real paths.** Model/Decoder.v on the pool of output labels itself (Model/OLabel.v). Inductive `path` over graph and language model; invariant `dinv`: every token's label chain spells the words of a path of its cost. Holds while collections are safe (`run_safe`), shown for 20 frames.
* **C40 At most one token per state, and it is the best one inserted.** `insert_tok` as `offered` on association lists; a frame yields one token per state, with an offered cost, at most every cost offered within the cutoffs.
* **C41 Non-emitting expansion terminates and is closed.** Multiset-style descent on (cost per state, queue) over a finite state set; `<` on float well-founded as hypothesis; closedness as loop invariant.
* **C42 Decoding survives dead ends.** Refuted: undefined behaviour in the frame after a dead end; `_partial`: the failure is reported and the hypothesis is empty.
* **C43 The best token always survives pruning.** Laws of rounding as hypotheses (record `rounding`), instance: rationals with infinities and NaN; refuted for arcs of weight minus infinity.
* **C44 Beam size guess stays in range.** The generator's low 16 bits reach 0 within the first 30000 steps (computed by jumps); a law of division as hypothesis, rational instance.
* **C45 Garbage collection does not change the transcript.** Simulation of the decoder with and without collections under `run_safe`; refuted with 21 frames.
* **C46 Reported path cost.** Refuted: the final weight is added twice; `_partial`: graphs whose final weights are neutral.
* **C47 Re-initialising a decoder.** Refuted: Initialize does not clear the state index; a second call faults for every configuration. `_partial`: new decoders.
* **C48 Exhaustive decoding finds the best path.** Viterbi optimality: every path is covered by the beam, by induction over paths; rounding is monotone, so that this also holds in IEEE arithmetic for the rounded costs; boolean checker for "nothing pruned" on examples.
* **C49 Transcripts do not depend on how audio is delivered.** Model/Stt.v composes reader, features, acoustic model and decoder. A session is shown to be one fold over the windows of all samples (`whole`); two cuts of the same bytes have the same samples.
* **C50 Hypothesis text.** StoreHypText with strlcpy on freshly allocated memory; spec: words joined by spaces, NUL, nothing else. Between the calls the text is that of some decoder met at a multiple of 20 frames.
* **C51 API calls on bad handles.** Nullable handles; ce_stt_end_of_stream and ce_utt_destroy refuted for null.
* **C52 Error messages stay inside their buffer.** Histories of calls; the buffer shows the last message, cut at 2047 bytes.
* **C53 Matrix storage layout.** Model/Matrix.v: views (offset, rows, columns, stride) of a block of cells, `int` products checked for overflow. Copies, transposition, resizing, sub-matrices and the naive product element by element; refuted when the number of cells leaves the range of `int`.
* **C54 Quantisation error bound.** Model/Quantize.v over the reals. Refuted for positive elements very close to one another (the zero point does not fit into `int32_t`) and for destinations with gaps between rows; `_partial`: everything else.
* **C55 Sliding-window mean normalisation.** Model/Cmvn.v over the reals; the running statistics are differences of prefix sums.
* **C56 The FFT computes the discrete Fourier transform.** Model/Srfft.v; in any arithmetic the call equals a pure recursion followed by a bit reversal (Proof/SrfftCalls.v), and over the reals that recursion is the transform (Proof/Fft.v, complex numbers as pairs, induction on log n).
* **C57 The FFT stays inside its buffers.** Index bounds of all accesses, in any arithmetic. Refuted for the way back with too short data; `_partial`: everything else.
* **C58 Integers in configuration files.** stoi on the file model; refuted for non-numeric values.
* **C59 Whole audio files.** Header, pieces and samples composed.
* **C60 Streaming features never fail.** Totality part of C22.
* **C61 Feature rows.** Closed formula of a row, for any arithmetic.
* **C62 Layers.** Closed formula of each layer, for any arithmetic.
* **C63 Damaged model files.** Faults of the readers characterised; refuted for negative counts. Matrices and networks: `tracks` in Proof/LoadFault.v follows a reader from section to section, a fault is at a section of the kinds in Spec/LoadFaultSpec.v (`odd_section`).
* **C64 One WAV file.** Model/Main.v: reads of 1024 bytes are pieces of a session; then C49.
* **C65 Lists.** Induction over the lines; refuted for a last line without newline.
* **C66 Error exits.** By cases; the world is what was printed and the error buffer.
* **C67 Audio never crashes a call.** Refuted by a dead end (C42) and by a collection (C45), both at the level of the interface.
* **C68 Only the data chunk is audio.** Refuted: two files that declare the same data.
* **C69 A constructed feature extractor never fails.** Model/FbankInit.v; invariant of the loop over the terms (the filter, first and last index), any arithmetic. `_partial`: pieces below 536870000 samples.
* **C70 Features are the logarithms of mel energies.** Over the reals; points on the mel scale are compared as integer powers ((41-j) ln a + j ln b against 41 ln c), which shows that no filter is empty. Composes C22, C24, C25, C56. `_partial`: as C69.
* **C71 A stored model is loaded faithfully.** Model/Loading.v: a state monad over the objects alive, built from the readers of C14, C16, C30-C33. Spec: a model is a record, `stored` says which files hold it, `made_of` what the recognizer consists of. Conversely nothing is loaded unless everything the configuration needs is there.
* **C72 Nothing remains of a recognizer.** The list of objects alive; refuted: the recognizer's own structure is never released; `_partial`: everything else is.
* **C73 Errors while loading name their cause.** The first unmet need decides; refuted for the keys `fst`, `symbol_table` and `original_lm`, whose message does not name the file.
* **C74 Loading never crashes.** Refuted by a negative prior and by a number that is none. `load_faults_partial` (Props/LoadFault.v): for files of any bytes, Spec/LoadFaultSpec.v lists what a crash has as its cause (the graph or the extractor themselves, a vector with a negative dimension, a matrix with an odd shape, a negative prior, a number that is none, a word id out of range, odd counts or an odd first state of the language model) and which kind of crash it is; the readers are followed section by section (`tracks`). It never runs out of fuel by itself.
* **C75 Decoding in single and double precision.** Numbers of both formats as integers at one common scale (`key`), rounding as a monotone function on integers (`near`, Proof/Rne.v, Proof/Ieee.v): comparison, sum, difference, product, quotient and conversion of SpecFloat are shown to be those of keys followed by `near`. The laws follow from monotonicity, from numbers of the format being fixed points, and from `near` being nearest.
* **C76 Decoding never fails on a model that fits.** Spec/TotalSpec.v: a finite list of states that contains where arcs lead (`run_fits`), entries for every arc, hash values in range. Totality of each step of the decoder under the invariant of C39 strengthened by membership in that list (Proof/DecoderTotal.v); fuel from well-founded costs (C41). Success from C43 with the least token as witness.
* **C77 From audio to text.** Spec/SessionSpec.v: `rows_of` composes windows of samples, features and windows of features. Proof/SttTotal.v composes C49 (a session is independent of cuts), C22 (acoustic model on a stream), C76 and C50 (spelling). The case is a recognizer in IEEE arithmetic with text "so what".
* **C78 Features of audio are finite in single precision.** Model/IeeeFbank.v: constants and operations of srfft.cc and fbank.cc in IEEE 754, with libm as a parameter; Spec/LibmSpec.v: what is asked of libm. Proof/Relate.v: a relation between two arithmetics carries over to everything the extractor computes. Proof/IeeeBound.v: an arithmetic of upper bounds, rounded upwards to 24 digits and related to IEEE numbers; running the extractor in it once, with 2^31 for every sample, bounds the spectrum of all audio (Proof/FbankBound.v). Weights of the filters are at most 1 by monotonicity of rounding.
* **C79 Tables of transitions.** Model/Tools.v on Model/Python.v (lines, fields, `int`, `struct.pack`). Spec/ToolSpec.v describes text files by lines and fields with arbitrary white space; the table by the entry given last.
* **C80 Costs of the unigrams.** States of the line reader against a decomposition of the file; the dictionary against the entry given last. Numbers are abstract (`py_float`).
* **C81 Pruning a language model.** As C80; refuted for models without higher orders.
* **C82 Symbol tables made by the tools.** Offsets as prefix sums; refuted: the formats of script and recognizer differ.
* **C83 Acoustic models made by the tools.** Model/ConvertAm.v; Spec/AmTextSpec.v describes the text by what stands in front of the first occurrence of each marker (`found`), the network by blocks as in C28. Composed with C31 and C32 for what the recognizer reads. Refuted for nodes with names of their own.
* **C84 The converter's check.** Widths of all layers by induction; refuted for short biases.
* **C85 Statistics.** The expression as a scanner, shown equal to a grammar of numbers.
* **C86 From files to text.** Composition of C71 (loading), C28 and C84 (networks that fit run on every window), C78 (features and sessions), C39 (words of a path) and C64 (the program). Spec/EndSpec.v says when a network fits a model and what its language model is. Refuted without the condition on collections (Proof/EndRefuted.v): a model in files and 22 frames of audio that meet all other conditions; Proof/EndDirect.v leads from a run of the decoder, safe or not, to what is printed.
* **C87 The feature extractor can be built with any reasonable logarithm.** Spec/ValueSpec.v: the real number an IEEE number stands for, and `close_logf`. Proof/IeeeReal.v: every operation returns the exact result up to a relative error of 2^-24 (2^-53) and an absolute one for subnormal results. Proof/IeeeClose.v: error bounds through sums, products and quotients. Proof/MelClose.v: edges and lines are within 3.6 mel of the exact ones, while 40 pairs of lines are further inside their exact filters than that (integer comparison of powers, as in C70). Proof/ExtractorUse.v puts this into C78 and C86.
* **C88 Transducers made by the tools.** Model/ConvertFst.v: convert_fstfmt.py with its loops, stable sort, indexing and packing. Proof/ConvertFst.v: the insertion of the model and the sort of the specification agree, since insertions before and behind equal keys commute; the index loop computes the first position of every state; packing succeeds exactly if everything fits. Reading back is C33.
* **C89 From Kaldi's files to printed words.** Spec/ChainSpec.v: what Kaldi leaves (`kaldi`), which model of the recognizer is meant by it (`meant`), and configurations whose files were made by the scripts (`made_by_scripts`). Proof/Chain.v: the scripts of C79, C80, C83 and C88 write what C71 asks for; a network that runs on numbers also runs with the numbers stored as words. Proof/ChainText.v puts this into C86. Proof/ChainCases.v: a text with a layer of 120 times 2 numbers whose files are those of the case of C86.
* **C90 Lists of audio files.** Spec/ListSpec.v: files that can be decoded and what is heard in them. Proof/EndList.v: C86 for one file of a recognizer that is already loaded, then C65; the number of steps that suffices is the largest of those of the files.
* **C91 Products of quantised matrices.** Model/Gemm.v: `MatMat_U8U8F32` and the function of gemmlowp behind it, without the blocking of its loops; 32-bit sums that overflow are undefined. Spec/GemmSpec.v: exact product and error bound. Refuted for gaps between rows, for factors that are a single number and for sums outside 32 bits.
* **C92 Vectors behave as values.** Model/Own.v: a heap of blocks, vectors as pointers into it, an allocator that may fail at any time. Spec/OwnSpec.v: variables that hold lists. Refinement up to the first call that is not permitted, and the number of blocks in use. Refuted: move assignment loses memory; `2^30` numbers of 4 bytes get none.
* **C93 Utterances do not disturb each other.** Model/Api.v: all calls of the API on any number of models and utterances, with the error message as the only state they share. Spec/ApiSpec.v: the calls that concern an utterance (`alone`), what it sees of the answers (`seen`), messages of failed calls. Proof/Api.v: a simulation between the whole program and the one with a single utterance; Proof/ApiError.v: the message; Proof/ApiSession.v: sessions as in C77 inside of any program.
* **C94 Matrices behave as values.** Model/MatOwn.v: the heap of Model/Own.v, matrices as pointers into it with their dimensions and stride, the parts that `Range` gives, an allocator that may fail at any time. Spec/MatOwnSpec.v: variables that hold lists of rows. Refinement up to the first call that is not permitted, and the number of blocks in use. Refuted: copying by the constructor and operator that the compiler adds (double free), copying transposed onto itself. Not covered: matrices of more than 2^31-1 elements, views that outlive their matrix.
* **C95 Damaged text files are not loaded.** Proof/NumberExact.v, SymbolsExact.v and ConfigExact.v say for files of any bytes which numbers, words files and configurations are accepted and with which result (also new parts of C12, C14, C16, C17; Spec/TextSpec.v: `long_number`, `taken`, `word_entry`, `words_entries`); Proof/Loading.v carries this over to ce_stt_init.
* **C96 Graph files hold the graph.** Model/ConstFst.v: streams with a fail bit, header, symbol tables, alignment, the two mapped regions, rows and arcs; `graph_read` is the parameter `hclg` of Model/Loading.v. Spec/ConstFstSpec.v: the layout of a file and the transducer its tables stand for. Round trip from layout to graph; with it loading (C71) and printing (C86) from files only (Spec/GraphModelSpec.v).
* **C97 Damaged graph files.** Exact set of accepted files (`graph_file_exact`); truncated, foreign and missing files are refused. Faults are characterised (`_partial`) and shown to happen (`_refuted`): arcs outside the table, 2^60-1 arcs, negative number of states; wrong numbers in the header are accepted when they agree modulo 2^32 or 2^60.
* **C98 File objects close what they open.** Model/Handles.v: streams are numbered in the order of `fopen`; objects with `fd_`, `owned_` and the size; a log of `fopen` and `fclose`. Any list of calls. Invariant: the streams of the owning objects, together with some others, are exactly the open ones, each once (a permutation). Spec/HandleSpec.v tells from the log alone what is open. Refuted for `Open` twice and for `Open` on a borrowed stream.
* **C99 Loading leaves no file open.** Model/Handles.v repeats ce_stt_init with the objects in their blocks; Proof/HandlesInit.v shows step by step that it gives the result of Model/Loading.v and keeps count of the open streams and the names.
* **C100 The files the program opens.** The same for main.cc (Proof/HandlesMain.v) with Model/Main.v.
* **C101 Parts of vectors.** Model/Views.v: blocks of elements, parts as (block, offset, length), loops that read and write one element after the other, programs of calls. Spec/ViewSpec.v: functions of lists, `replaced` puts a list in the place of a part. Refinement of whole programs; refuted for negative numbers and overlapping operands. `lists_for_loops` justifies the functions of lists in Model/Fbank.v and Model/Nnet.v.
* **C102 Texts of loading errors, C103 texts of audio header errors.** Model/Messages.v: the readers once more, each with the text of its error; Proof/Messages.v proves that they do the same as the readers without texts (`texts_only`, `header_texts_only`). Spec/MessageSpec.v: `error_text` relates the contents of the files to the texts, `at_fault` says which files are missing or damaged, `header_error` gives the texts for headers. That a text names the file at fault is refuted for the kinds in `nameless`.
* **C104 Answers of failed calls.** Model/Stt.v with the texts spelled out in Spec/CallTextSpec.v; the older specifications use the model's `set_format_error`, which `format_texts` ties to the spelled-out texts.
* **C105 Recognizers of single words.** Spec/CommandSpec.v: walks of a graph, and frames with few words on their paths. Proof/Command.v: a collection can only free a slot in use when the highest slot has a predecessor, so with one word per path `run_safe` holds. Proof/CommandUse.v puts this into C39, C78 and C86; the graph of C45's counterexample shows that two words are too many.
* **C106 Conditions that can be checked.** Spec/PlainSpec.v: numbers of at most 2^100, walks over arcs without input labels, sound graphs. Proof/PlainCosts.v: a sum of m numbers of at most 2^100, rounded after every addition, is at most m times 2^100 as long as m has 24 bits, because rounding is monotone and keeps such multiples; counted along a path this gives the finite costs that C39, C78, C86 and C105 ask for. Proof/PlainUse.v: all states of a sound graph are the states that those theorems ask for.
* **C107 Activations and the range of exp.** Spec/ExpSpec.v: coarse bounds on exp and log, mild activations. Proof/ExpLimits.v: the sum of rounded exponentials lies between 2^-116 and 2^126 for mild activations, is infinite with one of 89 or more and zero when all are at most -105. Proof/ExpUse.v carries this to the rows of a recognizer (features of audio are at most 2^7, C78) and to the program of C106. Proof/ExpProgram.v: when the decoder fails on the rows, so does the program; Proof/ExpCases.v: a model in files for which this happens.
* **C108 Layers built in memory.** Model/Build.v: constructors of layers, matrices over memory of the caller, `Scale`. Spec/BuildSpec.v: which rows a matrix in memory holds. Proof/Build.v: the constructor copies the transpose, so that a batch times the copy is the matrix times each row. Proof/BuildCases.v: tests of the project, evaluated in the model (see below).
* **C109 Conditions that can be checked, with a language model.** Spec/LmPlainSpec.v: sound language models, words weighted by back-off less the costs of the small model. Proof/LmPlain.v: without circles of back-off arcs a chain of them visits no state twice, so the number of states bounds its depth; with that, the functions of the language model answer every question about its states, and all pairs of states are those that C76, C86 and C105 ask for. Proof/LmCosts.v: the weights of a chain, added one by one. Proof/LmUse.v: the program of C106 and C107 with a language model. A good cache (`true_cache`) has room for one answer at least, as the program's has: the cache without room makes the look-up undefined, and no model with a language model could meet the conditions of C76, C86 and C105 if it counted as good. Proof/LmCases.v has a model in files that meets them.
* **C110 Models that have been checked once.** Spec/CheckedSpec.v collects the conditions of C106, C107 and C109 in one record, with or without a language model. Proof/Checked.v: on the rows of any recording of limited length the conditions of C86 and C90 follow, including that no collection frees words in use (C105). Proof/CheckedCases.v: a model of two words with a language model and a list of three lines.
* **C111 Costs that stay close together lose no path.** Spec/CloseSpec.v: costs in an interval of length 15 after every frame. Proof/CloseCosts.v: integers of this size are floats and doubles, so rounding, being monotone, keeps the cut-off (the least cost plus 16, rounded) above all costs; hence the search is unpruned in the sense of C48 and the conclusions of C48 hold. Proof/CloseUse.v carries this to the program of C90, Proof/CloseChecked.v to the models of C110. Proof/CloseCases.v and Proof/CloseCheckedCases.v: the decoder of the case of C48 and lists of two files, for the models of the cases of C90 and C110 (without its language model).
* **C112 From files alone to the printed text.** Proof/Whole.v joins C96 (the graph is in a file, too) with C110 and C111, so that all hypotheses are about files. Proof/WholeCases.v: the models of the cases of C110 and C111 with the graph file of C96. Proof/WholePrint.v lists all paths of a small graph for the rows of the case, so that the printed text is known: "so what" for both recordings.
* **C113 Hypotheses split into characters.** Model/CharTok.v: the Perl program in conv_chartok.sh with its reading of lines, `split(' ')`, regular expressions as backtracking searches, and printing. Spec/CharTokSpec.v: lines as words with blanks around them, marks as texts of a certain shape, pieces. Proof/CharTokUtf8.v goes on to files of bytes in UTF-8 and applies it to what the program prints for a list (C65). Closed under the global context.
* **C114 Transducers shown as text.** Model/ConvertFstText.v: the text output of convert_fstfmt.py. Spec/ConvertTextSpec.v: the lines of a table. Proof/ConvertFstText.v: lines, then numbers, can be told from the text, so the tables (and by C88 the arcs of every state) can. Closed under the global context.
* **C115 From recordings to characters for error rates.** Proof/Characters.v joins C112 and C113; Spec/CharactersSpec.v says what a line should be.

## What is modelled

| source | model | left out |
|---|---|---|
| hashtable.h | HashTable.v | move/copy of values |
| pool.h, pool.cc | Pool.v, OLabel.v | addresses as numbers |
| util.cc, util.h, strlcpy.cc, status.h | Util.v, File.v | locale of `isspace`/`tolower`; `fopen` modes; status objects are `option`/message bytes |
| configuration.cc | Configuration.v | |
| symbol_table.cc | SymbolTable.v | memory exhaustion |
| pcm_reader.cc | Pcm.v | wave format fields written before a rejected header |
| fbank.cc, fbank.h | Fbank.v (tables and transform as parameters), FbankInit.v (construction with them) | warnings about NaN |
| srfft.cc, srfft.h | Srfft.v, IeeeFbank.v (its arithmetic) | the destructor |
| nnet.cc, vector.cc | Nnet.v, Vector.v, Own.v, Formats.v | BLAS summation order beyond "a row and a column" |
| matrix.cc, matrix.h | Matrix.v, MatOwn.v, Quantize.v, Gemm.v, Formats.v | row and column sums; copies between overlapping parts of one matrix |
| cmvn.cc | Cmvn.v | |
| am.cc | Am.v, Loading.v (`Read`) | the texts of errors about damaged files are parameters |
| fst.cc | Fst.v | |
| decoder.cc | Decoder.v | debug output; sums of floats are taken to be rounded at every step (`FLT_EVAL_METHOD` 0) |
| ce_stt.cc | Stt.v, Loading.v (`ce_stt_init`, `ce_stt_destroy` and the readers they call), Api.v (programs of calls on several handles) | the texts of errors about damaged files are parameters; null format or recognizer pointers of `ce_utt_init`; copies of handles |
| openfst: lib/fst.cc, lib/mapped-file.cc, lib/symbol-table.cc, include/fst/util.h, const-fst.h, fst.h (reading) | ConstFst.v | memory mapping (not asked for by the caller); other types of transducers and arcs are refused as the caller registers none; log messages; properties and the contents of symbol tables; streams that do not fail when they cannot be read |
| vector.cc and vector.h on shared memory | Views.v | `Vector` objects themselves (Own.v); conversions between element types |
| ReadableFile as an object, open files of all of these | Handles.v | `fseek`/`ftell` failures |
| texts of the errors of all readers of model files and audio headers | Messages.v | texts on stderr by OpenFst and by `assert` |
| main.cc | Main.v | failures of `fread` and `printf`; loading and the text about bad headers are parameters |
| nnet.cc, matrix.cc: constructors from memory, `Scale` | Build.v | `SetRand`, `PrintDebug` |
| tool/extract_id2pdf.cc | Tools.v (what it prints) | Kaldi itself |
| tool/convert_trans.py, convert_unigram.py, prune_lm.py, convert_words.py, convert_cmvn_stats.py | Tools.v, Python.v | messages; characters beyond ASCII; other line separators than \n, \r\n and \r; the arithmetic of Python's `float` (a parameter) |
| tool/convert_am.py | ConvertAm.v, Python.v | messages; as above; numpy's arithmetic (parameters) |
| tool/convert_fstfmt.py | ConvertFst.v, ConvertFstText.v, Python.v | pywrapfst (the transducer is given as it presents it); the arithmetic of `float` |
| tool/conv_chartok.sh | CharTok.v | input that is not UTF-8 |

Not modelled: tool/compute_fbank.cc, tool/compute-cer.sh and tool/mkgraph_hcl.sh (they call other programs), the tests in test/ (but see below).

In Stt.v and Main.v `tenth` is the constant 0.1f and `fuel` the bound of the decoder's queue loop;
theorems hold for all values of both.

## The project's own tests

The tests in test/ were evaluated in the model, on the data in test/data, to look for errors of the
model. Those that evaluate within seconds are kept as cases in Proof/BuildCases.v and shown in
Props/Build.v: nnet_test.cc (linear, splice, ReLU, batch normalisation and narrow layers),
pool_test.cc (collection), fst_test.cc (testinput.fst) and configuration_test.cc (test.conf, which has
\r\n line ends). The others were evaluated once outside this tree, with exp, log, sin and cos taken from
primitive floats, because they are too long to be checked without a virtual machine:

* symbol_table_test.cc on lm.words.txt: the ids, `<s>` and `</s>` of the test;
* language model tests of fst_test.cc on G.pfst: 38.767047, 28.481010, 62.663558, 6.279736 and
  0.886698, -1.433023, -0.688200, -0.510554, as the tests expect to 1e-5;
* srfft_test.cc: all 128 values to 1e-6;
* fbank_test.cc and cmvn_test.cc on en-us-hello.wav: 1880 features within 1.5e-5 of Kaldi's, and 1880
  normalised ones within 1.2e-5;
* nnet_test.cc: the softmax and log softmax layers.

Left out: hashtable_test.cc (its own loop overflows an int), gemm_test.cc (random numbers),
introspect_test.cc and
hashlist_test.cc (of code no longer in src/).

## Mutation tests

`seeded/LOG.jsonl` has one line per edit of the model. `theorems_failed` lists the property theorems
that depend, by name, on the first lemma that no longer compiles in each broken file; it can be wider
than the set of theorems whose claim is false, and it does not look for alternative proofs.
`failure_basis` says how the list was obtained.
