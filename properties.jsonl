{"id": "C01", "title": "Hash table behaves as a map", "statement": "For every sequence of Insert, Find and Clear calls on one HashTable, a Find(k, d) that completes returns the value of the most recent Insert of k since the last Clear, or d if there was none; updates, collisions and automatic growth never lose, duplicate or mix up entries.", "quantifier": "all initial capacities, all finite histories of Insert/Find/Clear with arbitrary int keys and values, including histories that make the table grow", "why_tests_cant": "A test runs a few key sets; the probe order, the hash distribution and the growth points depend on the entire history, so collisions between arbitrary keys around a growth step cannot be enumerated.", "anchors": ["src/hashtable.h: HashTable::Insert, Find, Clear, Lookup, ExtendBuckets, NearestPrimeIdx", "src/hashtable.cc: gPrimeNumbers"]}
{"id": "C02", "title": "Hash table insertion always completes", "statement": "An Insert on a table whose bucket count is an odd prime at most 46340 completes without undefined behaviour, without an assertion failure and without probing for ever, whatever keys are stored.", "quantifier": "all reachable tables with such a bucket count, all keys", "why_tests_cant": "Termination of a quadratic probe sequence is a number-theoretic fact over every possible occupancy pattern, of which there are exponentially many.", "anchors": ["src/hashtable.h: HashTable::Lookup, Insert", "src/hashtable.cc: gPrimeNumbers"]}
{"id": "C03", "title": "Looking up an absent key always completes", "statement": "A Find for a key that was never inserted completes and returns the default, for every table the API can build.", "quantifier": "all initial capacities, all histories, all absent keys", "why_tests_cant": "The failing occupancy patterns are a vanishing fraction of all patterns; random tests with the default capacity do not reach them.", "anchors": ["src/hashtable.h: HashTable::Find, Lookup"]}
{"id": "C04", "title": "Pool hands out distinct live slots", "statement": "Between Alloc and Dealloc a slot belongs to one owner only: Alloc never returns a slot that is still live, and the reported number of allocated nodes is the number of live slots.", "quantifier": "all histories of Alloc and Dealloc (each Dealloc of a live slot), all block sizes", "why_tests_cant": "Aliasing shows only for particular interleavings of frees and block boundary crossings over an unbounded history.", "anchors": ["src/pool.h: Pool::Alloc, Dealloc, free_nodes, allocated_nodes"]}
{"id": "C05", "title": "Pool destroys every object exactly once", "statement": "Clear (and the pool's destructor) runs the destructor of every object that was constructed and not yet deallocated, exactly once, and of nothing else.", "quantifier": "all histories of Alloc, Dealloc and Clear", "why_tests_cant": "The existing test only clears a pool and then allocates more objects than before; the wrong cases need a Clear followed by fewer allocations, and an exact count over every history.", "anchors": ["src/pool.h: Pool::Clear, ~Pool"]}
{"id": "C06", "title": "Garbage collection keeps every reachable node", "statement": "A GC call never frees a node that is reachable from the given roots through previous() links.", "quantifier": "all reachable pool states, all root lists of live nodes, any number of earlier collections", "why_tests_cant": "The property depends on marks left behind by earlier collections and on where the bump pointer stands, i.e. on the whole history of the pool.", "anchors": ["src/pool.h: GCPool::GC, Collectable"]}
{"id": "C07", "title": "Garbage collection frees unreachable nodes", "statement": "After a GC call every live node that is not reachable from the roots has been returned to the pool, and freed nodes can be allocated again.", "quantifier": "all reachable pool states and root lists", "why_tests_cant": "Leaks depend on slot positions and history; a test observes one count for one heap.", "anchors": ["src/pool.h: GCPool::GC, free_nodes"]}
{"id": "C08", "title": "Trim removes exactly the surrounding white space", "statement": "Trim(s) is the unique substring of s that neither starts nor ends with white space and such that only white space was removed on each side; it is empty exactly when s is all white space.", "quantifier": "all byte strings", "why_tests_cant": "The input space is unbounded.", "anchors": ["src/util.cc: Trim"]}
{"id": "C09", "title": "Split is inverse to joining", "statement": "For a non-empty delimiter, joining the fields returned by Split with the delimiter gives the input back, up to one trailing delimiter; no field contains the delimiter; Split of a join of delimiter-free fields returns the fields when the last one is not empty (one-character delimiters).", "quantifier": "all byte strings and all non-empty delimiters", "why_tests_cant": "The input space is unbounded and the interesting cases are at overlaps and at the ends.", "anchors": ["src/util.cc: Split"]}
{"id": "C10", "title": "Format substitutes arguments in order", "statement": "Format(fmt, a1..an) replaces the i-th {} of fmt by ai, independently of what the arguments contain.", "quantifier": "all format strings and all argument lists", "why_tests_cant": "Argument contents such as file names are unbounded user input; a test uses friendly ones.", "anchors": ["src/util.h: Format, FormatImpl"]}
{"id": "C11", "title": "Bounded string copy", "statement": "The bounded copy writes at most siz bytes, always NUL-terminates when siz is not zero, stores the longest prefix of the source that fits, leaves bytes beyond untouched, and returns the length of the source.", "quantifier": "all sources, all destination sizes", "why_tests_cant": "Memory safety at the boundary for every length and size.", "anchors": ["src/strlcpy.cc: pasco_strlcpy"]}
{"id": "C12", "title": "Decimal word ids are parsed exactly", "statement": "StringToLong applied to the decimal representation of any integer in the range of long, with any surrounding white space, succeeds and returns that integer; a string with trailing garbage is reported as an error. A number outside the range gives the nearest limit of the range, and blank text gives 0, both without an error. Besides these exactly the octal numbers after a 0 and the hexadecimal numbers after 0x or 0X, with an optional sign, are accepted, and what follows a NUL byte does not count.", "quantifier": "all integers that fit and all strings", "why_tests_cant": "Unbounded input space; base detection (leading zeros) makes naive expectations wrong.", "anchors": ["src/util.cc: StringToLong, Trim"]}
{"id": "C13", "title": "Line reading recovers the lines of a file", "statement": "Reading a text file line by line until ReadLine returns false yields exactly its lines with trailing CR/LF removed, in order, and the end of the file is reported as success.", "quantifier": "all files without NUL bytes whose lines are shorter than the internal buffer, with or without a final newline", "why_tests_cant": "End-of-file flags interact with the presence of the final newline; every file content is a different case.", "anchors": ["src/util.cc: ReadableFile::ReadLine, Eof", "src/symbol_table.cc: SymbolTable::Read", "src/configuration.cc: Configuration::Read"]}
{"id": "C14", "title": "Configuration files are parsed faithfully", "statement": "After a successful Read, looking up a key in any letter case returns the trimmed value of the last key=value line with that key, a key that never occurred gives the default, comment and blank lines have no effect, and any line that is not blank, not a comment and not of the form key=value makes Read fail.", "quantifier": "all configuration files made of lines shorter than 4095 bytes, all keys", "why_tests_cant": "Unbounded space of files; duplicates, case folding, comments and missing final newlines interact.", "anchors": ["src/configuration.cc: Configuration::Read, GetStringOrElse, GetIntegerOrElse", "src/util.cc"]}
{"id": "C15", "title": "Configuration paths are resolved against the configuration file", "statement": "GetPathOrElse returns an absolute path unchanged, prefixes a relative path with the directory part of the configuration file name, and returns the default when the key is missing.", "quantifier": "all file names, keys, values", "why_tests_cant": "Unbounded strings.", "anchors": ["src/configuration.cc: Configuration::GetPathOrElse"]}
{"id": "C16", "title": "Symbol table maps ids and words consistently", "statement": "After reading a words file in which ids and words are distinct, Get(id) returns the word with that id, GetId(word) returns its id, unknown words give -1, and bos_id/eos_id are the ids of <s> and </s>. In general a file is accepted exactly if each of its lines consists of a word, a space and a number, with at most one further space behind it, the last line is complete and <s> and </s> occur; of several lines with the same word or id the last one counts, and Get of an id outside the table fails an assertion.", "quantifier": "all words files with distinct words and distinct non-negative ids in any order, and files of any bytes for the second part", "why_tests_cant": "Vocabularies are arbitrary and ids may come in any order with gaps.", "anchors": ["src/symbol_table.cc: SymbolTable::Read, Get, GetId"]}
{"id": "C17", "title": "Symbol table reading never corrupts memory", "statement": "Reading any words file either succeeds or reports an error; it never writes outside the table.", "quantifier": "all files, including malformed ones", "why_tests_cant": "Malformed files are unbounded; memory errors may stay silent in tests.", "anchors": ["src/symbol_table.cc: SymbolTable::Read", "src/util.cc: StringToLong"]}
{"id": "C18", "title": "WAV header acceptance", "statement": "The header reader accepts exactly the canonical 44-byte PCM headers whose byte rate and block alignment match one channel, returns the three format fields stored in the file and leaves the file position at byte 44; any other input is reported as an error.", "quantifier": "all byte sequences", "why_tests_cant": "2^352 headers; field arithmetic wraps.", "anchors": ["src/pcm_reader.cc: ReadPcmHeader", "src/ce_stt.cc: ce_read_pcm_header"]}
{"id": "C19", "title": "Sample decoding does not depend on how bytes arrive", "statement": "For every way of cutting an audio byte stream into non-empty pieces, the concatenation of the samples returned for the pieces is the little-endian decoding of the whole stream, and fewer bytes than one sample are held back. A reset drops the bytes held back and keeps the format.", "quantifier": "all byte streams, all cuts, all three sample widths", "why_tests_cant": "Exponentially many cuts per stream.", "anchors": ["src/pcm_reader.cc: WaveReader::Process, SetFormat"]}
{"id": "C20", "title": "8-bit samples are decoded as WAV prescribes", "statement": "For 8-bit PCM WAV data the decoded sample is the stored unsigned byte centred at 128.", "quantifier": "all byte values", "why_tests_cant": "The expected value is a matter of the file format, not of the code under test; existing tests never use 8-bit data.", "anchors": ["src/pcm_reader.cc: ReadInt8, WaveReader::Process"]}
{"id": "C21", "title": "Rejected audio calls leave the stream intact", "statement": "A process call with a null buffer, a non-positive size or before the format is set fails without changing what later calls return; a reset makes later calls answer as a new reader with the same format does.", "quantifier": "all histories of calls", "why_tests_cant": "Interleavings of failing and succeeding calls are unbounded.", "anchors": ["src/pcm_reader.cc: WaveReader::Process"]}
{"id": "C22", "title": "Frame count and frame content of streaming features", "statement": "For every way of cutting a sample stream into non-empty pieces, the concatenated feature frames are those of the whole stream: frame i is computed from samples 160i to 160i+399, and there are 1+(n-400)/160 frames once n is at least 400, else none.", "quantifier": "all sample streams, all cuts", "why_tests_cant": "Exponentially many cuts; buffer arithmetic at each boundary.", "anchors": ["src/fbank.cc: Fbank::Process, CalcNumFrames, ExtractWindow"]}
{"id": "C23", "title": "Rounding up to a power of two", "statement": "RoundUpToNearestPowerOfTwo(n) is the least power of two that is at least n, for 1 <= n <= 2^30.", "quantifier": "all n in the range", "why_tests_cant": "2^30 inputs; the bit trick has no obvious per-case reason.", "anchors": ["src/fbank.cc: Fbank::RoundUpToNearestPowerOfTwo"]}
{"id": "C24", "title": "In-place power spectrum", "statement": "The power spectrum computed in place is, for every bin, the squared modulus of the complex spectrum value held in the input, although input and output share one buffer.", "quantifier": "all vectors of even dimension at least 2", "why_tests_cant": "Overwriting hazards depend on every index pair.", "anchors": ["src/fbank.cc: Fbank::ComputePowerSpectrum"]}
{"id": "C25", "title": "Window processing formula", "statement": "Windowing subtracts the frame mean, then applies pre-emphasis y[i]=x[i]-0.97x[i-1] (with x[0] used for i=0), then multiplies by the window, although everything is done in place.", "quantifier": "all frames and windows of equal dimension", "why_tests_cant": "In-place recurrences overwrite their own inputs in the wrong order easily.", "anchors": ["src/fbank.cc: Fbank::ProcessWindow"]}
{"id": "C26", "title": "Acoustic model emits one row per frame, independent of the chunk size", "statement": "For every positive chunk size, feeding n>=1 frames one at a time and then closing the stream gives exactly n log-likelihood rows in total; row t is the network applied to frames t-left..t+right with the first and last frame repeated at the ends, so the result does not depend on the chunk size.", "quantifier": "all frame sequences, all chunk sizes >= 1, all left and right contexts >= 0, all networks whose output row depends only on its context window", "why_tests_cant": "Off-by-one errors at batch boundaries show only for particular combinations of length, chunk and context.", "anchors": ["src/am.cc: AcousticModel::Process, EndOfStream, ComputeBatch, BatchAvailable"]}
{"id": "C27", "title": "Converted networks have a bounded receptive field", "statement": "A network in which every splice layer is followed by the matching narrow layer, as the converter writes them, maps n+left+right rows to n rows, and row i of the output depends only on input rows i..i+left+right: computing a batch is the same as computing each row separately.", "quantifier": "all stacks of layers of that shape, all layer parameters, all inputs with at least left+right+1 rows", "why_tests_cant": "Networks and inputs are arbitrary; edge clamping in splice must be shown never to leak.", "anchors": ["src/nnet.cc: SpliceLayer::Propagate, NarrowLayer::Propagate, Nnet::Propagate", "tool/convert_am.py: parse_nnet3_desc"]}
{"id": "C28", "title": "Closing the acoustic stream twice", "statement": "Closing the stream a second time yields no further rows.", "quantifier": "all histories", "why_tests_cant": "Needs the state left behind after closing for every stream length.", "anchors": ["src/am.cc: AcousticModel::EndOfStream", "src/ce_stt.cc: ce_stt_end_of_stream"]}
{"id": "C29", "title": "Softmax layers give probability distributions", "statement": "Over exact real arithmetic, each softmax row is positive and sums to one, each log-softmax row is the logarithm of the softmax row, both are invariant under adding a constant to the row, and normalisation gives rows of mean square one unless the row is zero.", "quantifier": "all real rows of positive dimension", "why_tests_cant": "Real-valued identity over all inputs.", "anchors": ["src/nnet.cc: SoftmaxLayer, LogSoftmaxLayer, NormalizeLayer", "src/vector.cc: ApplySoftMax, ApplyLogSoftMax"]}
{"id": "C30", "title": "Vector files round-trip", "statement": "Reading what the converter writes for a non-empty vector gives the same vector and leaves the file position just behind it; a header whose size field does not match is rejected.", "quantifier": "all non-empty vectors", "why_tests_cant": "Unbounded data.", "anchors": ["src/vector.cc: Vector::Read", "tool/convert_am.py: write_vector"]}
{"id": "C31", "title": "Truncated or damaged matrix files are rejected", "statement": "Matrix::Read reports success only if every row was read in full with a valid row header.", "quantifier": "all byte sequences", "why_tests_cant": "All truncation points and damage positions.", "anchors": ["src/matrix.cc: Matrix::Read", "src/vector.cc: Vector::Read"]}
{"id": "C32", "title": "Network files round-trip", "statement": "Reading what the converter writes for a network gives back the same layers with the same parameters, in order, and the same contexts.", "quantifier": "all layer lists the converter can write (non-empty matrices and vectors)", "why_tests_cant": "Unbounded networks.", "anchors": ["src/nnet.cc: Nnet::Read, ReadLayer", "tool/convert_am.py: AM.write"]}
{"id": "C33", "title": "FST files round-trip", "statement": "Reading what the converter writes for a transducer with at least one state and one arc gives back its start state, its final weights and, per state, exactly its arcs sorted by input label.", "quantifier": "all transducers within the 32-bit limits", "why_tests_cant": "Unbounded transducers; states without arcs anywhere in the state order.", "anchors": ["src/fst.cc: Fst::Read, CountArcs, IterateArcs", "tool/convert_fstfmt.py"]}
{"id": "C34", "title": "Arc lookup by input label", "statement": "GetArc(state, label) succeeds exactly when the state has an arc with that input label, and then returns one such arc (the first).", "quantifier": "all well-formed transducers, states, labels", "why_tests_cant": "Binary search on every arc list.", "anchors": ["src/fst.cc: Fst::GetArc, CountArcs"]}
{"id": "C35", "title": "Language model lookup implements back-off", "statement": "For a back-off model without back-off cycles, GetArc(state, word) returns the arc of the first state along the back-off chain that has the word, with the back-off weights of the chain added to its weight in order, and fails if there is none; Final behaves likewise for final weights.", "quantifier": "all well-formed acyclic back-off models, all states and non-epsilon words", "why_tests_cant": "Chains of arbitrary length.", "anchors": ["src/fst.cc: LmFst::GetArc, Final, GetBackoffArc"]}
{"id": "C36", "title": "State-0 shortcut is transparent", "statement": "Initialising the state-0 table changes no lookup result.", "quantifier": "all models whose state 0 has at most one arc per non-epsilon label, all states and words", "why_tests_cant": "All label layouts.", "anchors": ["src/fst.cc: LmFst::InitBucket0, GetArc"]}
{"id": "C37", "title": "Language model cache is transparent", "statement": "For every sequence of GetArc calls the caching wrapper gives the same answers as the underlying model.", "quantifier": "all models, all cache sizes >= 1, all query histories with non-negative states", "why_tests_cant": "Cache collisions depend on the history.", "anchors": ["src/fst.cc: CachedFst::GetArc"]}
{"id": "C38", "title": "Delta language model scores", "statement": "Over exact arithmetic, the sum of delta weights along a word sequence plus the final weight equals the large model's cost of the sentence minus the small model's cost of its words and of the end symbol.", "quantifier": "all models, all word sequences", "why_tests_cant": "All sentences.", "anchors": ["src/fst.cc: DeltaLmFst::StartState, GetArc, Final"]}
{"id": "C39", "title": "Hypotheses are real paths", "statement": "Every hypothesis reported by the decoder is the output label sequence of a path of the decoding graph that starts in the start state and consumes exactly one emitting arc per decoded frame, and the cost kept for it is the cost of that path accumulated in the order and precision of the program.", "quantifier": "all graphs, language models, score matrices, arithmetic (including IEEE), before any garbage collection removes history", "why_tests_cant": "The space of graphs and scores is unbounded; a test checks one expected transcript.", "anchors": ["src/decoder.cc: Decoder::Process, InsertTok, ProcessEmitting, ProcessNonemitting, BestPath"]}
{"id": "C40", "title": "At most one token per state, and it is the best one inserted", "statement": "After each frame the beam holds at most one token per pair of graph and language model state, and its cost is the least cost offered for that state in the frame.", "quantifier": "all graphs and scores", "why_tests_cant": "All interleavings of insertions.", "anchors": ["src/decoder.cc: Decoder::InsertTok"]}
{"id": "C41", "title": "Non-emitting expansion terminates and is closed", "statement": "Following epsilon arcs terminates for every graph, including graphs with negative epsilon cycles, because costs are 32-bit floats; afterwards no epsilon arc within the cutoff can improve or add a token.", "quantifier": "all graphs, all finite or infinite weights, all beams", "why_tests_cant": "Termination over all graphs.", "anchors": ["src/decoder.cc: Decoder::ProcessNonemitting"]}
{"id": "C42", "title": "Decoding survives dead ends", "statement": "When no token survives a frame, the decoder reports failure and later calls remain well defined.", "quantifier": "all graphs, all score sequences", "why_tests_cant": "Needs the state after a failed frame for arbitrary graphs.", "anchors": ["src/decoder.cc: Decoder::Process, ProcessEmitting, GetCutoff", "src/ce_stt.cc: ce_stt_process"]}
{"id": "C43", "title": "The best token always survives pruning", "statement": "If the best token of a frame has an emitting arc with finite cost, the frame succeeds and the beam is not empty afterwards.", "quantifier": "all graphs, scores and beams", "why_tests_cant": "Depends on rounding in the cutoff computation for every value.", "anchors": ["src/decoder.cc: Decoder::GetCutoff, ProcessEmitting"]}
{"id": "C44", "title": "Beam size guess stays in range", "statement": "When the beam is larger than its limit, the sampled cost list is non-empty and the cutoff index lies inside it.", "quantifier": "all beam sizes", "why_tests_cant": "Needs the pseudo-random sequence for every beam size up to 2^31.", "anchors": ["src/decoder.cc: Decoder::GetCutoff"]}
{"id": "C45", "title": "Garbage collection does not change the transcript", "statement": "The word sequence of the best path is the same as it would be if output-label nodes were never collected.", "quantifier": "all graphs, all score sequences of any length", "why_tests_cant": "Shows only after several collections with particular slot positions.", "anchors": ["src/decoder.cc: Decoder::Process, BestPath", "src/pool.h: GCPool::GC"]}
{"id": "C46", "title": "Reported path cost", "statement": "The cost reported for the best path at the end of the stream is the cost of that path plus its final weight, counted once.", "quantifier": "all graphs and score sequences", "why_tests_cant": "Existing tests look at words only.", "anchors": ["src/decoder.cc: Decoder::BestPath"]}
{"id": "C47", "title": "Re-initialising a decoder", "statement": "Calling Initialize again restarts decoding from the start state.", "quantifier": "all decoder states", "why_tests_cant": "Stale state may survive anywhere.", "anchors": ["src/decoder.cc: Decoder::Initialize"]}
{"id": "C48", "title": "Exhaustive decoding finds the best path", "statement": "As long as nothing is pruned and the costs of paths are finite, the token kept for a state has the least cost, as rounded, of all paths that reach the state and consume the frames so far.", "quantifier": "all graphs and language models, all score sequences that prune nothing", "why_tests_cant": "Optimality over all paths.", "anchors": ["src/decoder.cc: Decoder::Process"]}
{"id": "C49", "title": "Transcripts do not depend on how audio is delivered", "statement": "For every way of cutting the audio bytes into non-empty process calls, the final hypothesis text after end of stream is the same, and the sample counts returned add up to the number of whole samples.", "quantifier": "all audio, all cuts, all models", "why_tests_cant": "Exponentially many cuts through four buffering stages.", "anchors": ["src/ce_stt.cc: ce_stt_process, ce_stt_end_of_stream", "src/pcm_reader.cc", "src/fbank.cc", "src/am.cc", "src/decoder.cc"]}
{"id": "C50", "title": "Hypothesis text", "statement": "The text given to the caller is the words of the best path in spoken order joined by single spaces, NUL-terminated, inside the allocated buffer; it is empty if there are no words.", "quantifier": "all word sequences and vocabularies of NUL-free words", "why_tests_cant": "All lengths and empty words.", "anchors": ["src/ce_stt.cc: StoreHypText", "src/strlcpy.cc"]}
{"id": "C51", "title": "API calls on bad handles", "statement": "Every API call on a null utterance or an utterance without internals returns an error and crashes nothing.", "quantifier": "all call sequences", "why_tests_cant": "All entry points and null patterns.", "anchors": ["src/ce_stt.cc: CheckParamUtt, ce_stt_process, ce_stt_end_of_stream"]}
{"id": "C52", "title": "Error messages stay inside their buffer", "statement": "Whatever message is reported, the last-error buffer stays NUL-terminated within 2048 bytes and holds the message's longest prefix that fits.", "quantifier": "all messages", "why_tests_cant": "All lengths.", "anchors": ["src/ce_stt.cc: error_message, ce_stt_last_error", "src/strlcpy.cc"]}
{"id": "C53", "title": "Matrix storage layout", "statement": "Element addresses of distinct (row, column) pairs are distinct and inside the allocated block, for both stride modes, so writes to one element change no other element; Transpose and CopyFromMat move every element to its place; Resize with copying keeps the common part and zeroes the rest.", "quantifier": "all dimensions and element types", "why_tests_cant": "All dimensions.", "anchors": ["src/matrix.cc: Matrix::Init, Resize, CopyFromMat, Transpose, SubMatrix"]}
{"id": "C54", "title": "Quantisation error bound", "statement": "Over exact arithmetic, every matrix element differs from its dequantised 8-bit value by at most half a quantisation step, provided the elements are not all equal and positive.", "quantifier": "all non-empty real matrices", "why_tests_cant": "All real inputs.", "anchors": ["src/matrix.cc: Quantize, ComputeQuantizationParams, FindMinMax"]}
{"id": "C55", "title": "Sliding-window mean normalisation", "statement": "Over exact arithmetic, when frames are requested in order, each output frame is the raw frame minus the mean of at most the last 600 frames, smoothed with up to 200 global frames while fewer than 600 are available.", "quantifier": "all feature sequences of any length", "why_tests_cant": "Running sums over an unbounded stream.", "anchors": ["src/cmvn.cc: CMVN::GetFrame, ComputeStats, SmoothStats, Apply"]}
{"id": "C56", "title": "The FFT computes the discrete Fourier transform", "statement": "Over exact arithmetic the split-radix transform of a real signal of length a power of two is its discrete Fourier transform in the packed layout used by the feature extractor.", "quantifier": "all power-of-two lengths, all signals", "why_tests_cant": "All signals and lengths.", "anchors": ["src/srfft.cc: SRFFT::Compute, ComputeRecursive, BitReversePermute"]}
{"id": "C57", "title": "The FFT stays inside its buffers", "statement": "No transform call reads or writes outside the data, work and table buffers.", "quantifier": "all power-of-two lengths", "why_tests_cant": "All lengths and index patterns.", "anchors": ["src/srfft.cc: SRFFT::Compute, ComputeRecursive, BitReversePermute, ComputeTables"]}
{"id": "C58", "title": "Integer settings are read exactly", "statement": "GetInteger on a key whose value is the decimal representation of an integer in the range of int (INT_MIN excepted) returns that integer; a missing key and a value that is not an integer are reported as an error status.", "quantifier": "all configurations, keys and values", "why_tests_cant": "The values are unbounded strings, and non-numeric values end in an exception that escapes the Status interface.", "anchors": ["src/configuration.cc:84-88", "src/configuration.h:47-52"]}
{"id": "C59", "title": "Reading a whole WAV file", "statement": "Read16kPcm on a mono 16 kHz PCM file of 8, 16 or 32 bits returns exactly the samples stored after the header, ignoring an incomplete last sample; a file without data is an error.", "quantifier": "all sample sequences, all three widths, all values of the declared sizes", "why_tests_cant": "Files are unbounded, and the declared sizes must be shown not to matter.", "anchors": ["src/pcm_reader.cc:194-211"]}
{"id": "C60", "title": "Feature extraction never fails", "statement": "With tables that fit together and no NaN energies, extracting features from any stream in non-empty pieces fails no assertion, gives 1+(n-400)/160 rows once n is at least 400 and one value per filter in each row.", "quantifier": "all sample streams, all cuts, all filter tables inside the spectrum", "why_tests_cant": "Assertions and index arithmetic must hold for every buffer length.", "anchors": ["src/fbank.cc: Fbank::Process, ComputeFrame, ExtractWindow", "src/vector.cc: ApplyLog, ApplyFloor"]}
{"id": "C61", "title": "Formula of a feature row", "statement": "Each feature row is, filter by filter and in the order of the filter bank, the logarithm of the floored dot product of the filter's coefficients with the power spectrum of the windowed frame at the filter's offset.", "quantifier": "all frames, all filter tables inside the spectrum, any interpretation of the floating-point operations", "why_tests_cant": "Order and offset of the filters must be right for every table, not only the built-in one.", "anchors": ["src/fbank.cc: Fbank::ComputeFrame, MelBanks::Compute", "src/vector.cc: ApplyLog, ApplyFloor"]}
{"id": "C62", "title": "What the network layers compute", "statement": "For inputs of matching dimensions a linear layer gives x times W plus b, batch normalisation x times scale plus offset, ReLU replaces negative elements by zero, normalisation scales by sqrt(D / sum of squares), softmax and log-softmax follow their formulas, splice concatenates the rows at the given offsets with the row number clamped to the matrix, narrow drops the rows at both ends if enough rows remain, and a network applies its layers in order.", "quantifier": "all parameters and all non-empty matrices of matching dimensions, any interpretation of the floating-point operations", "why_tests_cant": "Shapes and offsets are unbounded; a swapped index shows only for some of them.", "anchors": ["src/nnet.cc: Propagate of all layers, Nnet::Propagate", "src/vector.cc: AddVec, MulElements, ApplySoftMax, ApplyLogSoftMax", "src/matrix.cc: MatMat"]}
{"id": "C63", "title": "Damaged model files never crash", "statement": "Whatever bytes a vector, matrix or FST file contains, reading it ends with success or an error status, never with an assertion failure, an uncaught exception or an access outside a buffer.", "quantifier": "all byte sequences", "why_tests_cant": "All possible damage.", "anchors": ["src/vector.cc: Vector::Read", "src/matrix.cc: Matrix::Read", "src/fst.cc: Fst::Read"]}
{"id": "C64", "title": "The program prints the transcript of a WAV file", "statement": "Given a loadable model and a mono 16 kHz PCM WAV file, the program prints the text of a session over the file's audio, whatever way that session is cut, one newline, and exits with 0.", "quantifier": "all models, all WAV files, all cuts of the compared session", "why_tests_cant": "The program reads in pieces of 1024 bytes; the last piece, empty files and exact multiples all matter.", "anchors": ["src/main.cc: ProcessAudio, main"]}
{"id": "C65", "title": "The program decodes lists", "statement": "Given a list of lines `name file`, the program prints `name transcript` for every line, in order, and exits with 0.", "quantifier": "all lists, all transcripts", "why_tests_cant": "Any number of lines and any text.", "anchors": ["src/main.cc: process_scp", "src/util.cc: ReadLine, Split"]}
{"id": "C66", "title": "The program reports what it cannot do", "statement": "Wrong arguments print the usage and exit with 1; a model that cannot be loaded, a file that cannot be opened, has no PCM header or an unsupported format end the program with a message and code 22, after printing what was decoded before; a list that cannot be opened ends it with code 1.", "quantifier": "all arguments, files and lists", "why_tests_cant": "All combinations of good and bad lines and error texts.", "anchors": ["src/main.cc: Fatal, CheckStatus, ProcessAudio, process_scp, print_usage, main"]}
{"id": "C67", "title": "Audio never crashes a call", "statement": "No audio given to an utterance that was set up makes ce_stt_process or ce_stt_end_of_stream crash.", "quantifier": "all audio, all models whose parts fit together", "why_tests_cant": "Needs paths that die out and collections at the right frame.", "anchors": ["src/ce_stt.cc: ce_stt_process, StoreHypText", "src/decoder.cc: Process, BestPath", "src/gc_pool.h"]}
{"id": "C68", "title": "Only the data chunk is audio", "statement": "The transcript of a WAV file depends only on the bytes the data chunk declares, not on chunks behind it.", "quantifier": "all WAV files", "why_tests_cant": "Files with and without trailing chunks rarely differ in tests.", "anchors": ["src/pcm_reader.cc: ReadPcmHeader", "src/main.cc: ProcessAudio"]}
{"id": "C69", "title": "A constructed feature extractor never fails", "statement": "Constructing the feature extractor either stops at an assertion or gives 40 filters of at least two terms each that lie inside the spectrum, a window of 400 samples and a working transform of 512 points; then audio in nonempty pieces gives one row of 40 features per frame and never an out-of-bounds access or an assertion, as long as no energy is NaN.", "quantifier": "all interpretations of floating-point arithmetic, all audio, all ways to cut it into pieces", "why_tests_cant": "Tests see one arithmetic and a few recordings; an access out of bounds need not show.", "anchors": ["src/fbank.cc: Melbanks::Melbanks, Fbank::Fbank, Fbank::Process", "src/srfft.cc"]}
{"id": "C70", "title": "Features are the logarithms of mel energies", "statement": "In exact arithmetic the feature extractor gives, for each frame of 400 samples every 160 samples, 40 values; value j is the logarithm of max(2^-23, sum over k < 256 of w_j(k) |X_k|^2), where X is the discrete Fourier transform of the frame without its mean, with pre-emphasis 0.97, under a Hamming window and padded to 512, and w_j is the triangle on the mel scale between the points j, j+1, j+2 of 42 equally spaced points from 20 Hz to 8000 Hz. No filter is empty.", "quantifier": "all audio and all ways to cut it into nonempty pieces", "why_tests_cant": "Reference features exist for single recordings only and are compared with a tolerance.", "anchors": ["src/fbank.cc", "src/fbank.h: MelScale", "src/srfft.cc", "src/vector.cc: ApplyFloor, ApplyLog"]}
{"id": "C71", "title": "A stored model is loaded faithfully", "statement": "If a configuration file names a decoding graph, a network, a prior, contexts, a chunk size, a transition table, a words file and possibly a large language model with its word costs, and these files hold such data, then ce_stt_init succeeds and the recognizer has exactly this graph, network, logarithms of the prior, contexts, chunk size, table, words and language model. If ce_stt_init succeeds on a well-formed configuration, then every entry it needs is set, every file it names could be opened, and the prior, the transition table and the word costs are complete.", "quantifier": "all models, all configuration files (order of entries, comments, repeated entries, absolute and relative paths), bytes behind the data of a file, any interpretation of floating-point arithmetic", "why_tests_cant": "Tests load a few models; a swapped, dropped or stale value often changes transcripts only slightly.", "anchors": ["src/ce_stt.cc: ce_stt_init, ReadHclgFst, ReadSymbolTable, ReadDeltaLmFst", "src/am.cc: AcousticModel::Read", "src/configuration.cc"]}
{"id": "C72", "title": "Nothing remains of a recognizer", "statement": "After ce_stt_destroy, and after ce_stt_init has failed, none of the objects made for the recognizer is left.", "quantifier": "all configurations and files, all points of failure", "why_tests_cant": "Every point of failure would need a test under a leak checker.", "anchors": ["src/ce_stt.cc: ce_stt_init, ce_stt_destroy"]}
{"id": "C73", "title": "Errors while loading name their cause", "statement": "If the configuration file or a file it names cannot be opened, ce_stt_init fails and the error names that file; if an entry is missing, the error names its key and the configuration file. The first missing thing in the order of loading is reported.", "quantifier": "all configurations and file systems, all missing entries and files", "why_tests_cant": "There are many combinations of what is missing and what is there.", "anchors": ["src/ce_stt.cc: ReadHclgFst, ReadSymbolTable, ReadDeltaLmFst", "src/am.cc: AcousticModel::Read", "src/util.cc: ReadableFile::Open"]}
{"id": "C74", "title": "Loading never crashes", "statement": "ce_stt_init succeeds or reports an error, whatever the configuration and the files contain; it never fails an assertion, throws or has undefined behaviour.", "quantifier": "all configurations and file contents", "why_tests_cant": "Damaged and hostile files cannot be enumerated.", "anchors": ["src/ce_stt.cc: ce_stt_init", "src/am.cc: AcousticModel::Read", "src/vector.cc: ApplyLog", "src/configuration.cc: GetInteger"]}
{"id": "C75", "title": "Decoding in single and double precision", "statement": "What holds of decoding in ideal arithmetic holds in IEEE 754 single and double precision with rounding to nearest: hypotheses are paths with the reported cost as rounded, a state keeps the least offered cost, the expansion along arcs without input label ends even around cycles of negative weight, cutoffs are defined for every size of the beam, adding a beam between 0 and 2^64 to a finite cost never overflows or goes below it, and with nothing pruned the least rounded cost of all paths is found.", "quantifier": "all graphs, language models, scores and beams of floats, including infinities and NaN where the cost of a path is not required to be finite", "why_tests_cant": "Rounding effects and overflow depend on particular magnitudes; there are 2^32 values for each operand.", "anchors": ["src/decoder.cc: Decoder::Process", "src/decoder.cc: Decoder::GetCutoff"]}
{"id": "C76", "title": "Decoding never fails on a model that fits", "statement": "If the states a decoder can come to are not too many (32766) and small enough for its hash function, and the graph, the language model and the scores have an entry for every arc between them, then decoding neither crashes nor runs forever and has a hypothesis after every frame; if moreover every state has an arc that consumes a frame and costs are finite, every frame succeeds and tokens survive.", "quantifier": "all graphs, language models, score sequences and arithmetics with the laws of IEEE 754; collections of labels that are safe (C45), as all are in the first 20 frames", "why_tests_cant": "Absence of crashes and of endless loops over all graphs and scores; hash tables, pools, cutoffs and rounding interact.", "anchors": ["src/decoder.cc: Decoder::Initialize, Process, BestPath", "src/hashtable.h", "src/pool.h", "src/gc_pool.h"]}
{"id": "C77", "title": "From audio to text", "statement": "A session over audio of a supported format, cut into pieces in any way, succeeds and counts every sample; its text is the spelling of the best path of a decoder that was given, for every frame of 400 samples, the network's log probabilities of the frame's features with context minus the prior; its log likelihood is the weight of that path divided by the number of frames.", "quantifier": "all recognizers whose parts fit together, all audio, all ways to cut it", "why_tests_cant": "Composes reader, feature extractor, acoustic model, decoder and symbol table for arbitrary models and chunkings.", "anchors": ["src/ce_stt.cc: ce_utt_init, ce_stt_process, ce_stt_end_of_stream, StoreHypText", "src/fbank.cc: Process", "src/am.cc: Process, EndOfStream", "src/decoder.cc"]}
{"id": "C78", "title": "Features of audio are finite in single precision", "statement": "The feature extractor, constructed and run in single precision, never fails on samples of finite size up to 2^31, and so not on any audio of a supported format: however the audio is cut into pieces, there is one row of 40 features per frame of 400 samples, and no feature is a NaN, infinite or beyond 128. A session with such an extractor therefore never fails on account of its features.", "quantifier": "all audio, all ways to cut it, all implementations of cos, sin, logf and log that keep coarse bounds, all contents of uninitialised memory", "why_tests_cant": "An overflow or a NaN in some energy would fail the assertion in front of the logarithm; it would need extreme samples in the right places, and a different libm could have others.", "anchors": ["src/fbank.cc: Fbank::Fbank, Process, ProcessWindow, ComputePowerSpectrum, Melbanks::Compute", "src/srfft.cc: Compute", "src/vector.cc: ApplyFloor, ApplyLog, VecVec"]}
{"id": "C79", "title": "Tables of transitions", "statement": "The vector file that is made of a model's transitions by listing them and converting the listing holds, at every transition id, the model's pdf, and the recognizer reads it back so; listings may be in any order and spacing, the last line for a transition counts, and a transition beyond the announced ones stops the conversion.", "quantifier": "all models, all listings with ids from 0 on", "why_tests_cant": "Round trip through two programs in two languages, for arbitrary tables, orders, spacings and line ends.", "anchors": ["tool/extract_id2pdf.cc: main", "tool/convert_trans.py", "src/vector.cc: Read"]}
{"id": "C80", "title": "Costs of the unigrams", "statement": "Converting a language model and a vocabulary gives a vector with one place for every id up to the largest: the place of a word holds the cost of the log probability given last for it, that of <s> the cost of 0, every other place is infinite. A word that is missing from the vocabulary stops the conversion unless it is <unk>. A model without the mark of the end stops it.", "quantifier": "all models in the ARPA format, with or without higher orders; all vocabularies without repeated words or ids", "why_tests_cant": "Arbitrary vocabularies and models; a misplaced cost does not crash anything, it only makes recognition worse.", "anchors": ["tool/convert_unigram.py: read_unigram, read_vocab, build_cost_array, write_costs"]}
{"id": "C81", "title": "Pruning a language model", "statement": "Pruning keeps the unigrams of a language model, in order and with their probabilities, drops everything else, and the result is again a language model, from which the same costs are made; pruning it again changes nothing. A model without the mark of the end is refused.", "quantifier": "all models in the ARPA format", "why_tests_cant": "A state machine over lines; the claim is about all models, and fails only for those without higher orders.", "anchors": ["tool/prune_lm.py", "tool/convert_unigram.py"]}
{"id": "C82", "title": "Symbol tables made by the tools", "statement": "The symbol table that is made of a list of words holds for every id up to the largest the word given last, and <empty> for ids without one; a line without exactly two columns stops the conversion; the recognizer reads the words back from the result.", "quantifier": "all lists of words", "why_tests_cant": "Offsets of all words in files of any size; the last part joins a script and the reader.", "anchors": ["tool/convert_words.py", "src/symbol_table.cc: Read"]}
{"id": "C83", "title": "Acoustic models made by the tools", "statement": "A model in Kaldi's text form whose parts fit together is converted into a network file that holds the layers of its nodes in order, with splicing and narrowing layers for the inputs of nodes, transposed weights, and the context its nodes need, and into a file with its prior; the recognizer reads both back.", "quantifier": "all models of affine, rectifying, normalising and softmax components in a chain, any numbers", "why_tests_cant": "The script searches the text for markers; the claim covers every text in which they occur as in Kaldi's output, with any dimensions and offsets.", "anchors": ["tool/convert_am.py", "src/nnet.cc: Read", "src/vector.cc: Read"]}
{"id": "C84", "title": "The converter's check of a network", "statement": "A network passes the check of the converter if and only if it runs on input of some width.", "quantifier": "all networks, all input, any arithmetic", "why_tests_cant": "Quantifies over all networks and inputs; the gap is a bias whose length is never compared.", "anchors": ["tool/convert_am.py: verify", "src/nnet.cc: Propagate"]}
{"id": "C85", "title": "Statistics of the features made by the tools", "statement": "Of a text with 82 numbers, in whatever lines and among whatever other words, the conversion writes the first 41 as a vector; any other count is refused.", "quantifier": "all text files, any numbers", "why_tests_cant": "A number is whatever an expression matches; the claim covers every text, with every form of number and every other word.", "anchors": ["tool/convert_cmvn_stats.py"]}
{"id": "C86", "title": "From files to text", "statement": "Given a configuration file under which a model is stored and a mono 16 kHz WAV file, the program prints the words of a path through the decoding graph over the log probabilities of the audio, as spelled in the word list, in order, separated by single spaces and followed by a newline, or an empty line if no path ends, and returns 0.", "quantifier": "all models stored in files whose network fits its configuration, all audio, with and without language model, any libm and BLAS in IEEE 754 arithmetic", "why_tests_cant": "Composes loading, reading of audio, features, network, decoding and spelling of words for every model and every recording; a test has one of each.", "anchors": ["src/main.cc: main", "src/ce_stt.cc: ce_stt_init, ce_utt_init, ce_stt_process, ce_stt_end_of_stream", "src/decoder.cc", "src/nnet.cc", "src/fbank.cc"]}
{"id": "C87", "title": "The feature extractor can be built with any reasonable logarithm", "statement": "In single precision, constructing the feature extractor trips no assertion: each of the 40 filters contains at least two lines of the spectrum, as long as logf is within a thousandth of the logarithm between 1/2 and 16. With a logf that is merely bounded, it does trip one.", "quantifier": "all implementations of logf, cos, sin and of the basic functions within these bounds, all contents of fresh memory", "why_tests_cant": "A test runs with one libm; whether the narrow filters keep their lines under other roundings of logf takes a bound on the accumulated error.", "anchors": ["src/fbank.cc: Melbanks::Melbanks, Fbank::Fbank"]}
{"id": "C88", "title": "Transducers made by the tools", "statement": "The conversion of an OpenFst transducer writes a file exactly if every number fits into 32 bits, and raises an exception otherwise. From the file the recognizer reads the same start state, the same final weights and for each state the same arcs, ordered by input label and, among equal labels, in the original order.", "quantifier": "all transducers, with any states, arcs and weights", "why_tests_cant": "Sorting, the index of first arcs and the section size are correct for every shape of transducer, including states without arcs, repeated labels and sizes at the limit.", "anchors": ["tool/convert_fstfmt.py", "src/fst.cc: Fst::Read"]}
{"id": "C89", "title": "From Kaldi's files to printed words", "statement": "Given the text of an acoustic model, the pdfs of the transitions, a list of words and perhaps a language model with a transducer, the files that the conversion scripts make, named in a configuration, hold exactly the model that was meant, and its network runs on rows of 40 features. For such files and a WAV file the program prints the words of a path through the decoding graph with these scores, or an empty line.", "quantifier": "all texts the converter supports, all word lists, language models, transducers and configurations, all WAV files of 8 to 32 bits, any single-precision library functions within bounds", "why_tests_cant": "The claim joins five scripts, the loader and the decoder for every model; a test covers one model, and a disagreement between writer and reader shows only on particular shapes.", "anchors": ["tool/convert_am.py", "tool/extract_id2pdf.cc", "tool/convert_trans.py", "tool/convert_unigram.py", "tool/convert_fstfmt.py", "src/am.cc", "src/stt.cc", "src/main.cc"]}
{"id": "C90", "title": "Lists of audio files", "statement": "For a model in files and a list of names and WAV files, the program loads the model once and prints one line for each entry, in order: the name, and the words of a path through the decoding graph with the scores of that file, or nothing. What one file contains has no influence on the line of another.", "quantifier": "all models in files, all lists of any length, all WAV files of 8 to 32 bits, any single-precision library functions within bounds", "why_tests_cant": "Independence of the files of a list needs every pair of contents and any number of entries; a test covers a few lists.", "anchors": ["src/main.cc: process_scp, ProcessAudio", "src/ce_stt.cc"]}
{"id": "C91", "title": "Products of quantised matrices", "statement": "Over exact arithmetic, multiplying two matrices after quantising them to 8 bits gives every element of the product with an error of at most, summed over the products of elements that make it up, half a step of one matrix times the element of the other, the same with the roles exchanged, and a quarter of the product of the steps. In any arithmetic the sums of the 8-bit numbers are exact, only the destination changes, and buffers left from earlier products have no influence.", "quantifier": "all real matrices of any dimensions, all 8-bit matrices and quantisation parameters, any state of the buffer", "why_tests_cant": "A bound on the error for all real matrices, and the absence of overflow for all sizes and zero points.", "anchors": ["src/matrix.cc: MatMat_U8U8F32, Quantize", "src/gemmlowp/eight_bit_int_gemm/eight_bit_int_gemm.cc: EightBitIntGemm", "src/gemmlowp/internal/unpack.h", "src/gemmlowp/internal/dispatch_gemm_shape.h"]}
{"id": "C92", "title": "Vectors behave as values", "statement": "Vectors that are constructed, resized, moved, swapped, copied, written and destroyed in any order behave as independent lists: no memory is used after it was freed or freed twice, no two vectors share elements, a failed allocation leaves the vector empty or unchanged, and the blocks in use are exactly those of the vectors that have elements.", "quantifier": "all sequences of calls on any number of vectors, any element type, any behaviour of the allocator", "why_tests_cant": "Lifetime errors depend on the order of moves, resizes and destructions of several objects and on when the allocator fails; no test covers all orders.", "anchors": ["src/vector.h: Vector, VectorBase", "src/vector.cc: Resize, Init, Destroy, Swap, move constructor and assignment"]}
{"id": "C93", "title": "Utterances do not disturb each other", "statement": "A program may load several models and recognise several utterances at once, with its calls in any order. Every utterance is answered exactly as if it were the only one: the same counts, the same text, the same likelihood. If the program goes wrong (undefined behaviour or a failed assertion), then the calls about a single utterance already do, or a file header it reads does. The last error message is always that of the last call that failed, cut to 2047 bytes. A model must not be destroyed before its utterances have been ended: audio or the end of the stream after that is undefined.", "quantifier": "all sequences of calls of the API on any number of models and utterances, any arithmetic, any models", "why_tests_cant": "Shared state shows itself only for particular interleavings of calls on several utterances; the number of interleavings is unbounded.", "anchors": ["src/ce_stt.h: whole API", "src/ce_stt.cc: ce_stt_init, ce_stt_destroy, ce_utt_init, ce_utt_destroy, ce_stt_process, ce_stt_end_of_stream, ce_read_pcm_header, ce_stt_last_error"]}
{"id": "C94", "title": "Matrices behave as values", "statement": "Matrices that are constructed, resized, swapped, copied as a whole, in part or transposed, written and destroyed in any order behave as independent tables: no memory is used after it was freed or freed twice, no two matrices share elements, resizing keeps, clears or leaves the elements as asked, a failed allocation leaves the matrix empty or unchanged, and the blocks in use are exactly those of the matrices that have elements. Matrices may be copied by construction or assignment too, and a matrix may be copied transposed onto itself.", "quantifier": "all sequences of calls on any number of matrices, any element type of 1, 2, 4, 8 or 16 bytes, any behaviour of the allocator", "why_tests_cant": "Lifetime errors depend on the order of swaps, resizes and destructions of several objects and on when the allocator fails; no test covers all orders.", "anchors": ["src/matrix.h: Matrix, MatrixBase, SubMatrix", "src/matrix.cc: Resize, Init, Destroy, Swap, CopyFromMat, Transpose"]}
{"id": "C95", "title": "Damaged text files are not loaded", "statement": "If a line of the configuration file is neither blank nor a comment nor an entry (with at most one further equals sign), ce_stt_init fails with the error of reading that file and leaves only the recognizer object behind; the same holds for the words file if everything before it loads, its ids are neither negative nor beyond the limit of a vector, and it has a line that is not a word and a number, an incomplete last line, or no <s> or </s>. A recognizer that ce_stt_init makes has exactly the words of its words file.", "quantifier": "all files of any bytes, all configurations and file systems", "why_tests_cant": "There are unboundedly many ways of damaging a file, and a loader that overlooks one makes a recognizer that works but prints wrong words.", "anchors": ["src/ce_stt.cc: ce_stt_init, ReadSymbolTable", "src/configuration.cc: Configuration::Read", "src/symbol_table.cc: SymbolTable::Read"]}
{"id": "C96", "title": "Graph files hold the graph", "statement": "If the graph file of a configuration is in OpenFst's format for constant transducers with standard arcs, with any version from 1 on, with or without tables of symbols and padding, the recognizer decodes with exactly the transducer whose states, arcs and final weights the file tells, in that order. A model all of whose parts are in files is loaded as it was meant, and for it and a WAV file the program prints the words of a path through that graph.", "quantifier": "all transducers, all ways of writing them in the format, all names and contents of symbol tables, anything behind the last arc, any memory that suffices", "why_tests_cant": "A reader that misplaces a field or a padding byte decodes with another graph that still gives words; a test has one graph file.", "anchors": ["src/openfst/include/fst/const-fst.h: ConstFstImpl::Read", "src/openfst/lib/fst.cc: FstHeader::Read", "src/openfst/lib/mapped-file.cc: MappedFile::Map", "src/openfst/lib/symbol-table.cc: SymbolTableImpl::Read", "src/ce_stt.cc: ReadFst"]}
{"id": "C97", "title": "Damaged graph files", "statement": "A graph file that is missing, cut off anywhere, of another type, with other arcs or without OpenFst's number at its start is refused with an error; no file makes reading crash; and the numbers of states and arcs in the header of an accepted file are those of its tables, with the arcs of each state in the table.", "quantifier": "all files of any bytes, any memory", "why_tests_cant": "The claim is about every sequence of bytes; sizes that overflow need headers no test writes.", "anchors": ["src/openfst/include/fst/const-fst.h: ConstFstImpl::Read", "src/openfst/lib/mapped-file.cc: MappedFile::Map, MappedFile::Allocate", "src/openfst/include/fst/fst.h: FstImpl::ReadHeader"]}
{"id": "C98", "title": "File objects close what they open", "statement": "However the objects for reading files are used, the stream they hold is closed only once and only while it is open; a stream handed to an object stays open until its owner closes it; Close aborts exactly for such a borrowed stream; and when all objects are gone, every file they opened is closed.", "quantifier": "all sequences of creating, lending to, opening, reading, closing and destroying file objects, any number of objects at once, files that are there or not", "why_tests_cant": "A file closed twice or never usually has no visible effect; a test follows a few sequences of calls.", "anchors": ["src/util.cc: ReadableFile::ReadableFile, ReadableFile::~ReadableFile, ReadableFile::Open, ReadableFile::Close", "src/util.h: ReadableFile::file_size"]}
{"id": "C99", "title": "Loading leaves no file open", "statement": "When loading a model ends, with a recognizer or with an error, every file it opened is closed and every file that was open before is open still; it opens only the configuration and files named there, never more than two at once; and a recognizer was made from exactly the files of the configuration, each opened once. Reading a WAV file as a whole opens that file and closes it, whatever is in it.", "quantifier": "all files of any bytes, all configurations, whatever files are open before", "why_tests_cant": "A forgotten close is seen only after some hundred failed loads; which file is damaged and how is a matter of all inputs.", "anchors": ["src/ce_stt.cc: ce_stt_init, ReadFst, ReadDeltaLmFst, ReadSymbolTable", "src/am.cc: AcousticModel::Read", "src/configuration.cc: Configuration::Read", "src/symbol_table.cc: SymbolTable::Read", "src/pcm_reader.cc: Read16kPcm"]}
{"id": "C100", "title": "The files the program opens", "statement": "When the program exits with 0 it has closed all files, and it has opened the files of the model, the WAV file or list it was given and the WAV files of the list, each once and in this order, nothing else. At no time, also when it fails, does it have more than two files open.", "quantifier": "all arguments, files and lists of any length, any interpretation of the float operations", "why_tests_cant": "A program that keeps the files of a list open works for every list shorter than the limit of open files.", "anchors": ["src/main.cc: ProcessAudio, process_scp, main", "src/ce_stt.cc: ce_read_pcm_header"]}
{"id": "C101", "title": "Parts of vectors", "statement": "A part of a vector, made with Range from a vector or from another part, is the range of elements asked for. An operation on a part gives each of its elements the value that the operation gives for the old elements (and those of the other operand), answers accordingly, and changes no element outside of the part; a failed assertion is the only other outcome, for lengths that differ, a place or range beyond the end or a logarithm of a negative number.", "quantifier": "all programs of Range, reading, writing, Set, SetZero, Scale, Add, ApplyFloor, ApplyLog, ApplyPow, ApplySoftMax, ApplyLogSoftMax, CopyFromVec, VecVec, MulElements and AddVec on any number of vectors and parts of parts, any contents and lengths, any interpretation of the float operations", "why_tests_cant": "Whether elements outside a range stay as they are, and what overlapping operands do, depends on how all the ranges of a program lie; tests use one or two.", "anchors": ["src/vector.h: VectorBase::Range, SubVector::SubVector", "src/vector.cc: VectorBase::Set, VectorBase::SetZero, VectorBase::CopyFromVec, VectorBase::VecVec, VectorBase::ApplySoftMax, VectorBase::ApplyLogSoftMax, VectorBase::ApplyFloor, VectorBase::ApplyLog, VectorBase::ApplyPow, VectorBase::Scale, VectorBase::Add, VectorBase::MulElements, VectorBase::AddVec"]}
{"id": "C102", "title": "Texts of loading errors", "statement": "When ce_stt_init fails, the text of ce_stt_last_error says what is the matter and names the file. A file that cannot be opened gives \"IOError: Unable to open NAME\". The first bad line of the configuration gives \"Corruption: Unexpected line in NAME: LINE\", or \"Value cound not be empty\" for an entry with nothing between two equal signs. A missing key, or a number that is none, gives \"Unable to find key 'KEY' in 'NAME'\". The first line of a words file that is no entry gives the number of its columns, or its number; a last line without a newline, and missing sentence symbols, have texts of their own. Vectors, networks and language models that are cut short give \"IOError: failed to read: NAME\"; those of another kind or size say which was expected and which found. Apart from the texts, loading is as in C71 to C74 and C95.", "quantifier": "all contents of all files, all file names (configuration names without {}), any interpretation of the float operations", "why_tests_cant": "Which of the many texts appears, with which values and for which file, depends on all files of a model together; tests have no damaged models.", "anchors": ["src/ce_stt.cc: ce_stt_init, ReadSymbolTable, ReadDeltaLmFst", "src/am.cc: AcousticModel::Read", "src/configuration.cc: Configuration::Read", "src/symbol_table.cc: SymbolTable::Read", "src/util.cc: ReadableFile::Open, ReadableFile::Read, ReadableFile::ReadLine, ReadableFile::ReadAndVerifyString, StringToLong", "src/util.h: Format", "src/status.h: Status::IOError, Status::Corruption", "src/vector.cc: Vector::Read", "src/matrix.cc: Matrix::Read", "src/nnet.cc: Nnet::Read, ReadLayer", "src/fst.cc: Fst::Read"]}
{"id": "C103", "title": "Texts of audio header errors", "statement": "When ce_read_pcm_header fails, the text of ce_stt_last_error says which of the fields is wrong, what was expected and what was found: the tags RIFF, WAVE, fmt and data, the size of the first part, the audio format, the byte rate and the block alignment, in this order. A header that ends early gives \"IOError: failed to read: \". The outcome is otherwise as in C18.", "quantifier": "all headers with any values in their fields that fit, any bytes behind; wrong tags without NUL bytes and braces; sample rates times bits within 32 bits", "why_tests_cant": "The order of the checks and the values shown matter for every combination of wrong fields; tests have one header.", "anchors": ["src/pcm_reader.cc: ReadPcmHeader", "src/ce_stt.cc: ce_read_pcm_header, ce_stt_last_error", "src/util.cc: ReadableFile::ReadAndVerifyString"]}
{"id": "C104", "title": "Answers of failed calls", "statement": "ce_utt_init with a format that is not supported answers with a null pointer, and ce_stt_last_error then says which of the number of channels, the sample rate and the bits per sample is the first that is not supported, and its value. ce_stt_process answers -1 and leaves the utterance as it is for an unusable handle, for a null buffer (\"RuntimeError: buffer is nullptr\") and for a size below one (\"RuntimeError: unexpected size: \" and the size). Exactly the formats that are not supported have such a text. Texts are cut at 2047 bytes.", "quantifier": "all recognizers, utterances, formats, buffers and sizes, any earlier message, any interpretation of the float operations", "why_tests_cant": "Tests use formats that are supported and good buffers; values of any size have to be shown.", "anchors": ["src/ce_stt.cc: ce_utt_init, ce_stt_process, CheckParamUtt, ce_stt_last_error", "src/pcm_reader.cc: WaveReader::SetFormat, WaveReader::Process", "src/status.h: Status::Corruption, Status::RuntimeError", "src/ce_stt.h: CE_STT_FAILED"]}
{"id": "C105", "title": "Recognizers of single words", "statement": "As long as no path through the graph over the first 21, 41, 61, ... frames has two words, the decoder loses no word when it removes words that are no longer in use: this is always so for up to 20 frames, and for audio of any length when the graph is a choice of single words. With such a graph a hypothesis is empty or the word of a path over the frames; every session, however its audio is cut into pieces, gives the same text of at most one word; and the program prints an empty line or the name of such a word. With two words on a path it is false: one of them is lost.", "quantifier": "all graphs, frames, language models and widths, any interpretation of the float operations (decoder); all recognizers, files and audio in single precision whose costs stay finite (sessions and program)", "why_tests_cant": "Words are removed for the first time when something can be lost after 21 frames, and whether something is lost depends on the numbers that the pool gives to words; for all graphs and lengths this needs an invariant.", "anchors": ["src/decoder.cc: Decoder::Process, BestPath", "src/pool.h: GCPool::GC", "src/ce_stt.cc: ce_utt_init, ce_stt_process, ce_stt_end_of_stream", "src/main.cc: main"]}
{"id": "C106", "title": "Conditions that can be checked", "statement": "If no walk through the graph has more than k arcs without input labels in a row, if the weights of arcs and language model and the log probabilities are at most 2^100 and the acoustic scale at most one, and if frames + 1 times k + 1 is at most 2^22, then the cost of every path is a finite single precision number, so that no hypothesis is lost to an overflow; with fewer than 100000 arcs the words of every path fit into a hypothesis. A decoder without a language model whose graph has at most 32766 states, arcs that lead to states, input labels that the table of transitions maps to one of the network's outputs, and an arc with an input label from every state, never leaves the states of its graph, never fails and always has a token. The rows of log probabilities have the width of the prior. So for a model of single words whose files meet these conditions, and any WAV file, the program prints an empty line or the name of the word of a path.", "quantifier": "all graphs, weights, log probabilities, frames and language models (costs); all graphs and interpretations of the float operations (decoder); all files of a model, WAV files and math libraries (program)", "why_tests_cant": "Sums of rounded numbers along all paths of all graphs cannot be enumerated; the bound follows from the monotony of rounding along the path.", "anchors": ["src/decoder.cc: Decoder::Process, ProcessEmitting, ProcessNonemitting", "src/fst.cc: Fst", "src/ce_stt.cc: ce_stt_init, ce_utt_init, ce_stt_process, ce_stt_end_of_stream", "src/main.cc: main"]}
{"id": "C107", "title": "Activations and the range of exp", "statement": "A log softmax layer in single precision gives finite log probabilities for every frame in which no activation is above 80, one is at least -80 and none is below -2^98. With one activation of 89 or more every log probability of the frame is minus infinity, and with all activations at -105 or less every one is plus infinity, since the layer does not subtract the maximum before exp. So a model of single words as in C106, whose network ends in a log softmax, prints an empty line or the name of the word of a path for every WAV file, if the activations before the last layer are within these limits for all features that audio can have. Without this it is false: with an activation of 100 and three frames of audio the decoder runs out of tokens, its result is ignored, and it then reads from an empty list.", "quantifier": "all matrices of activations and all math libraries with coarse bounds on exp and log (layer); all files of a model and WAV files (program)", "why_tests_cant": "The limits are those of all rounded sums of up to 1023 rounded exponentials, for every math library; tests use networks whose activations stay near zero.", "anchors": ["src/vector.cc: VectorBase::ApplyLogSoftMax", "src/nnet.cc: LogSoftmaxLayer::Propagate", "src/am.cc: AcousticModel::Process", "src/decoder.cc: Decoder::Process", "src/ce_stt.cc: ce_stt_process, ce_stt_end_of_stream", "src/main.cc: main"]}
{"id": "C108", "title": "Layers built in memory", "statement": "A linear layer made from a matrix and a vector in memory, whatever the layout of the matrix, keeps copies of its own and gives for every row of a batch the product of the matrix with that row plus the vector; if the vector does not have one element for each row of the matrix, the constructor stops at an assertion. A batch normalisation layer made from two vectors multiplies by the first and adds the second; vectors of different lengths are accepted by the constructor and stop the first use at an assertion. A matrix over memory of the caller shows the elements at first + row * stride + column and is refused if rows are longer than the stride or a null pointer comes with dimensions other than zero. Scaling a matrix multiplies each of its elements and changes nothing else in the memory around it.", "quantifier": "all matrices, strides, offsets, vectors and batches, and all interpretations of the float operations", "why_tests_cant": "The tests use one matrix of four by three with no gaps between rows; layouts, sizes and disagreeing lengths are unbounded.", "anchors": ["src/nnet.cc: LinearLayer::LinearLayer, LinearLayer::Propagate, BatchNormLayer::BatchNormLayer, BatchNormLayer::Propagate", "src/matrix.cc: SubMatrix::SubMatrix, MatrixBase::Scale, MatrixBase::CopyFromMat", "src/vector.cc: VectorBase::CopyFromVec"]}
{"id": "C109", "title": "Conditions that can be checked, with a language model", "statement": "Let a language model be given by costs of words and a back-off model whose back-off arcs do not lead in circles, with one arc per word in state 0, and let the words of the graph and the mark of the end have costs; let graph and language model have at most 32766 pairs of states. Then the decoder reaches a defined answer for every question it puts to its language model, through the table of state 0 and the cache: the weight found by back-off less the cost of the word. With numbers of at most 2^80 in its files, these weights are finite in single precision, however often the model backs off. So a model of single words with such a language model in its files, and mild activations as in C107, prints for every WAV file of limited length an empty line or the name of the word of a path whose cost counts these weights.", "quantifier": "all graphs, language models and word costs with these properties, all math libraries with coarse bounds on exp and log, all files of a model and WAV files", "why_tests_cant": "Every chain of back-off arcs and every history of the cache counts; the tests use one language model of a few states and ask it a handful of questions.", "anchors": ["src/fst.cc: LmFst::GetArc, DeltaLmFst::StartState, DeltaLmFst::Final, DeltaLmFst::GetArc, CachedFst::GetArc", "src/decoder.cc: Decoder::Initialize, Decoder::PropogateLm, Decoder::Process, Decoder::BestPath", "src/ce_stt.cc: ce_stt_process, ce_stt_end_of_stream", "src/main.cc: main"]}
{"id": "C110", "title": "Models that have been checked once", "statement": "Let the files of a model hold a sound graph (few states, each with an arc that consumes a frame, labels with a place in tid2pdf, known words, no long chains of arcs that consume nothing), optionally a sound language model (C109), weights of moderate size, and a network that ends in a log softmax and has mild activations (C107) for all features that audio can have. Then for every list of utterances whose files are mono 16 kHz WAV files of limited length the program ends with status 0 and prints one line per utterance, in the order of the list: its name and the words of a path through the graph for that recording that can end there at finite cost, or nothing. The same holds for a single recording. Recordings of more than 20 frames are covered if no path of the graph has two words; otherwise the words can be wrong (C86).", "quantifier": "all models, lists and recordings with these properties, all math libraries with coarse bounds on exp, log, cos and sin", "why_tests_cant": "There is no end-to-end test; the claim is about every recording and every list for a model whose files were checked once.", "anchors": ["src/main.cc: main", "src/ce_stt.cc: ce_stt_init, ce_utt_init, ce_stt_process, ce_stt_end_of_stream", "src/decoder.cc: Decoder::Process, Decoder::BestPath", "src/am.cc: AcousticModel::Process, AcousticModel::EndOfStream", "src/fbank.cc: Fbank::Process", "src/fst.cc: DeltaLmFst::GetArc, CachedFst::GetArc"]}
{"id": "C111", "title": "Costs that stay close together lose no path", "statement": "If after every frame the costs of all paths through the graph (with a language model, also before the weight of the word is added) lie within 15 of each other and lead to at most 30,000 pairs of states, and no collection frees words in use (C45), then the search leaves nothing out: it holds a cheapest path to every pair of states that any path leads to, and the hypothesis, before or after the end of the stream, is the words of a path that no other path undercuts, final weights included, or empty if no path can end at finite cost. Recordings that the program decodes at all (C86) and whose costs are like this are printed with exactly such words, alone or in a list with one line per utterance, and the program ends with status 0; with a model that has been checked (C110) this is so for all such recordings of limited length.", "quantifier": "all graphs, language models, models in files, recordings and lists with these properties, all rounding-correct float arithmetic and math libraries with coarse bounds", "why_tests_cant": "The decoder is tested on one utterance against one expected string; that no path is cheaper is a statement about all paths, of which there are exponentially many in the number of frames.", "anchors": ["src/decoder.cc: Decoder::GetCutoff, Decoder::ProcessEmitting, Decoder::ProcessNonemitting, Decoder::BestPath", "src/decoder.h: Decoder", "src/main.cc: main"]}
{"id": "C112", "title": "From files alone to the printed text", "statement": "Let a configuration file name files that hold all parts of a model: the decoding graph in OpenFst's const format, the network, the priors, the table of pdfs, the words and optionally a language model; and let the model meet the conditions of C110. Then for every recording of limited length, and every list of them, the program started with the configuration and the recording or list ends with status 0 and prints, per utterance, the words of a path through that very graph that can end at finite cost, or nothing; and where the costs stay close together (C111) those of a cheapest path. No hypothesis speaks of what happens inside a run.", "quantifier": "all file systems, models, recordings and lists with these properties, all uninitialised memory, all math libraries with coarse bounds on exp, log, cos and sin", "why_tests_cant": "There is no end-to-end test in the repository; the claim covers every file system that holds such a model and every recording.", "anchors": ["src/main.cc: main", "src/ce_stt.cc: ce_stt_init, ce_utt_init, ce_stt_process, ce_stt_end_of_stream", "src/decoder.cc: Decoder::Process, Decoder::BestPath", "src/openfst/include/fst/const-fst.h: ConstFstImpl::Read", "src/am.cc: AcousticModel::Read"]}
{"id": "C113", "title": "Hypotheses split into characters", "statement": "The tool that prepares hypotheses for character error rates turns every text, line by line, into one whose lines keep their first word, the name of the utterance, and hold after it each further word as its single characters, or whole where the word contains a bracketed mark such as [noise] or <unk>, or !SIL; pieces are separated by one space. Blank lines become empty lines; a last line without a newline counts as a line. Every text has exactly one such result, no visible character is lost, added or moved, and splitting the result again changes nothing. The files are in UTF-8, and no character is torn apart. In particular, from what the recogniser prints for a list of recordings the tool makes a line per recording with its name and the characters of its words.", "quantifier": "all texts of Unicode code points, in UTF-8, with any of Unicode's blanks between words", "why_tests_cant": "The script has no tests; marks within words, blanks of other scripts, blank lines and missing newlines are each easy to get wrong, and idempotence and preservation are claims about every text.", "anchors": ["tool/conv_chartok.sh"]}
{"id": "C114", "title": "Transducers shown as text", "statement": "The converter of transducers, asked for text, writes for every transducer, also one whose numbers do not fit into the binary format, the numbers of states and arcs, the start state, and then one numbered line for each final weight, each state's first arc and each arc: the tables of the binary file (C88) in their order. Where different weights look different and none has a newline in it, transducers with the same text have the same start state, final weights and, in every state, the same arcs for each label in the same order.", "quantifier": "all transducers and all ways to show weights", "why_tests_cant": "The tool has no tests, and that the text tells transducers apart is a claim about all pairs of them.", "anchors": ["tool/convert_fstfmt.py"]}
{"id": "C115", "title": "From recordings to characters for error rates", "statement": "Let the words of a model as in C112 and the names in a list be in UTF-8, without blanks in them. Then the program, given the model and the list, prints a text with status 0, and the tool that prepares character error rates makes of that text a file in UTF-8 with one line per recording, in the order of the list: the name of the recording and, separated by spaces, the characters of the words of a path through the decoding graph (marks such as <unk> in one piece), or the name alone; and where costs stay close together (C111) those of a cheapest path.", "quantifier": "all models, lists and recordings as in C112, with any words and names in UTF-8", "why_tests_cant": "No test runs the recogniser and the script together; the claim covers every model and list.", "anchors": ["src/main.cc: main", "src/ce_stt.cc: ce_stt_process, ce_stt_end_of_stream", "tool/conv_chartok.sh"]}
