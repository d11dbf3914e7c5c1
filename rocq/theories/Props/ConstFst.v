(** Files of decoding graphs (C96, C97). *)
From Coq Require Import ZArith Reals String List.
From Verif.Base Require Import Prelude.
From Verif.Spec Require Import AudioSpec PcmSpec FormatSpec TextSpec NnetSpec FbankSpec DecoderSpec SttSpec TotalSpec SessionSpec LibmSpec ValueSpec FstSpec LoadingSpec ProgramSpec EndSpec ConstFstSpec GraphModelSpec.
From Verif.Model Require Import Util Arith Fbank Srfft FbankInit Pool Fst Decoder Stt Main Loading Ieee IeeeFbank ConstFst.
From Verif.Proof Require Import MelClose FbankBound FiniteCases ConstFstGraph ConstFstCases ConstFstText.
From Verif.Proof Require IeeeCases TotalCases EndCases.
Import ListNotations.
Open Scope Z_scope.

(** * C96 *)

(** A file in OpenFst's format for constant transducers gives the transducer that
    its tables stand for, whatever else the header, the tables of symbols and the
    padding hold. [junk] is what [std::string] and buffers hold before they are
    filled, [room] tells which allocations succeed. *)
Theorem graph_file_read : forall F (of_word : Z -> F) junk room files name t content rest g,
  files name = Some content -> graph_file t content rest ->
  memory_for room (Z.of_nat (length (tb_states t))) (Z.of_nat (length (tb_arcs t))) -> stands_for t g ->
  graph_read junk room of_word files name = Ok (Some (graph_meant of_word g)).
Proof. exact read_file. Qed.
Print Assumptions graph_file_read.

(** Three states and five arcs, once without and once with tables of symbols,
    padding and further bytes behind. *)
Example graph_file_read_case : graph_file tables14 plain14 [] /\ graph_file tables14 full14 [1; 2] /\ stands_for tables14 graph14 /\
  memory_for plenty (Z.of_nat (length (tb_states tables14))) (Z.of_nat (length (tb_arcs tables14))) /\
  (forall junk, graph_read junk plenty EndCases.bits32 (one_file plain14) (lit "g") = Ok (Some TotalCases.graph9)) /\
  (forall junk, graph_read junk plenty EndCases.bits32 (one_file full14) (lit "g") = Ok (Some TotalCases.graph9)).
Proof. exact case14. Qed.
Print Assumptions graph_file_read_case.

(** A model with all its parts in files, the graph included, is loaded. *)
Theorem load_all_files : forall F (O : fops F) T I junk junk_int junk_char room of_word unknown files why lm_fuel fn m fb,
  stored_whole O of_word files room fn m -> fbank_new O T I junk junk_int = Ok fb ->
  exists rc ps, stt_init O T I junk junk_int of_word unknown files (graph_read junk_char room of_word files) why lm_fuel fn = Ok (inl rc, ps) /\
    made_of O of_word T I junk junk_int lm_fuel (with_graph of_word m) rc.
Proof. exact @whole_loaded. Qed.
Print Assumptions load_all_files.

Example load_all_files_case : stored_whole (ieee rough) EndCases.bits32 files14 plenty (lit "d/m") model14 /\
  with_graph EndCases.bits32 model14 = EndCases.model11.
Proof. exact (conj stored14 model14_meant). Qed.
Print Assumptions load_all_files_case.

(** And the program prints the words of a path through that graph.
    Full statement: without [run_safe] (see C45). *)
Theorem all_files_print_words_partial : forall lib M junk junk_int junk_char room tenth of_word unknown files why lm_fuel header_error fn m0 blocks,
  let O := ieee lib in let X := ieee_wide in
  let m := with_graph of_word m0 in let hclg := graph_read junk_char room of_word files in
  libm M -> close_logf M -> stored_whole O of_word files room fn m0 -> network_fits m blocks ->
  forall wm good, model_words O of_word lm_fuel m wm good ->
  forall input bits chunk size data xs rest,
  ends_in input (lit ".wav") -> files input = Some (wav bits chunk size data) -> wav_sizes bits chunk size -> byte_list data ->
  AudioSpec.decodes (Z.to_nat (bits / 8)) data xs rest ->
  exists rc rows,
    made_of O of_word (ieee_trig M) (ieee_init M) junk junk_int lm_fuel m rc /\
    rows_of O rc (left_context blocks) (right_context blocks) (map (f_int O) xs) rows /\
  forall states,
  let cfg := utt_config O tenth rc in
  run_fits O X cfg wm good rows states -> (forall fuel, run_safe O X cfg fuel (rc_cache rc) rows) ->
  lively cfg states -> finite_costs O X cfg wm rows -> brief O X cfg wm rows -> ends cfg states -> listed m states ->
  exists fuel0 words names,
    Forall2 (fun w name => In (name, w) (m_words m)) words names /\
    (words = [] \/ exists s c total,
       path O X (m_graph m) (m_tid2pdf m) tenth wm (rev rows) s c words /\
       ending X (m_graph m) wm true s c total /\ x_is_inf X total = false) /\
    forall fuel, (fuel0 <= fuel)%nat ->
      run_main O X tenth fuel files
        (stt_load O (ieee_trig M) (ieee_init M) junk junk_int of_word unknown files hclg why lm_fuel) header_error [fn; input]
      = Ok (join [32] names ++ [10], 0).
Proof. exact whole_text. Qed.
Print Assumptions all_files_print_words_partial.

(** The model of [load_all_files_case] with a recording: "so what". *)
Example all_files_print_words_case : forall junk junk_int junk_char unknown why lm_fuel header_error,
  exists fuel0, forall fuel, (fuel0 <= fuel)%nat ->
  run_main (ieee rough) ieee_wide (IeeeCases.tenth 1) fuel files14
    (stt_load (ieee rough) (ieee_trig rough_trig) (ieee_init rough_trig) junk junk_int EndCases.bits32 unknown
       files14 (graph_read junk_char plenty EndCases.bits32 files14) why lm_fuel) header_error
    [lit "d/m"; lit "u.wav"] = Ok (lit "so what" ++ [10], 0).
Proof. exact printed14. Qed.
Print Assumptions all_files_print_words_case.

(** * C97 *)

(** Exactly which files give which graph: those in the format, where the header
    may say more than there is (see [graph_wrong_numbers_refuted]). *)
Theorem graph_file_exact : forall F (of_word : Z -> F) junk room files name content G,
  files name = Some content -> byte_list content ->
  (graph_read junk room of_word files name = Ok (Some G) <->
   exists start states arcs t rest g, graph_layout start states arcs t content rest /\ reduced start states arcs t /\
     tables_fit t /\ memory_for room (Z.of_nat (length (tb_states t))) (Z.of_nat (length (tb_arcs t))) /\
     stands_for t g /\ G = graph_meant of_word g).
Proof. exact read_exact. Qed.
Print Assumptions graph_file_exact.

Theorem graph_missing : forall F (of_word : Z -> F) junk room files name, files name = None ->
  graph_read junk room of_word files name = Ok None.
Proof. exact read_missing. Qed.
Print Assumptions graph_missing.

(** A file cut anywhere. *)
Theorem graph_truncated : forall F (of_word : Z -> F) junk room files name t p x,
  graph_file t (p ++ x) [] -> x <> [] -> byte_list (p ++ x) ->
  memory_for room (Z.of_nat (length (tb_states t))) (Z.of_nat (length (tb_arcs t))) ->
  files name = Some p -> graph_read junk room of_word files name = Ok None.
Proof. exact read_truncated. Qed.
Print Assumptions graph_truncated.

Example graph_truncated_case : byte_list plain14 /\
  forall junk n, (n < length plain14)%nat ->
    graph_read junk plenty EndCases.bits32 (one_file (firstn n plain14)) (lit "g") = Ok None.
Proof. exact truncated14. Qed.
Print Assumptions graph_truncated_case.

(** A file that does not begin with OpenFst's number. *)
Theorem graph_no_magic : forall F (of_word : Z -> F) junk room files name content,
  files name = Some content -> byte_list content ->
  (forall rest, content <> word 2125659606 ++ rest) -> graph_read junk room of_word files name = Ok None.
Proof. exact read_no_magic. Qed.
Print Assumptions graph_no_magic.

(** A file of another type, with other arcs or of a version before 1. *)
Theorem graph_unknown : forall F (of_word : Z -> F) junk room files name content t1 t2 ty arc_ty version rest,
  files name = Some content -> content = word 2125659606 ++ t1 ++ t2 ++ word version ++ rest -> byte_list content ->
  sized_text t1 ty -> sized_text t2 arc_ty -> fits 4 version ->
  ty <> lit "const" \/ arc_ty <> lit "standard" \/ version < 1 -> graph_read junk room of_word files name = Ok None.
Proof. exact read_unknown. Qed.
Print Assumptions graph_unknown.

(** Version 0, another type, other arcs; and an empty file has no number. *)
Example graph_unknown_case : forall junk, Forall (fun c =>
    byte_list c /\ graph_read junk plenty EndCases.bits32 (one_file c) (lit "g") = Ok None) foreign14.
Proof. exact foreign_refused. Qed.
Print Assumptions graph_unknown_case.

(** Reading stops by an exception or with undefined behaviour only if the header
    tells a number of states or arcs for which there is no memory, or 2^60 - 1
    arcs, or if a state has arcs outside the table.
    Full statement: never. *)
Theorem graph_faults_partial : forall F (of_word : Z -> F) junk room files name content f,
  files name = Some content -> byte_list content -> graph_read junk room of_word files name = Fault f ->
  exists start states arcs, graph_header start states arcs content /\
    (f = Throw /\ no_memory room states arcs \/
     f = Undef /\ (arcs mod 1152921504606846976 = 1152921504606846975 \/
       exists t rest r, graph_layout start states arcs t content rest /\ In r (tb_states t) /\ row_outside t r)).
Proof. exact read_faults. Qed.
Print Assumptions graph_faults_partial.

(** Every file with a state whose arcs are not in the table does so. *)
Theorem graph_outside_refuted : forall F (of_word : Z -> F) junk room files name t content rest r,
  files name = Some content -> graph_file t content rest ->
  memory_for room (Z.of_nat (length (tb_states t))) (Z.of_nat (length (tb_arcs t))) ->
  In r (tb_states t) -> row_outside t r -> graph_read junk room of_word files name = Fault Undef.
Proof. exact read_outside. Qed.
Print Assumptions graph_outside_refuted.

Example graph_outside_case : forall junk, exists content r, graph_file tables15 content [] /\ In r (tb_states tables15) /\ row_outside tables15 r /\
  graph_read junk plenty EndCases.bits32 (one_file content) (lit "g") = Fault Undef.
Proof. exact outside15. Qed.
Print Assumptions graph_outside_case.

(** 2^60 - 1 arcs make the reader write outside its memory; a negative number of
    states ends in an exception. *)
Theorem graph_overrun_refuted : forall junk,
  graph_read junk plenty EndCases.bits32 (one_file (front14 2 0 0 3 1152921504606846975 ++ rows14 ++ arcs14)) (lit "g") = Fault Undef.
Proof. exact overrun14. Qed.
Print Assumptions graph_overrun_refuted.

Theorem graph_negative_states_refuted : forall junk room,
  graph_read junk room EndCases.bits32 (one_file (front14 2 0 0 (-1) 5 ++ rows14 ++ arcs14)) (lit "g") = Fault Throw.
Proof. exact negative14. Qed.
Print Assumptions graph_negative_states_refuted.

(** A header with wrong numbers is accepted: start state 2^32, 2^32 + 3 states,
    2^60 + 5 arcs. *)
Theorem graph_wrong_numbers_refuted : forall junk,
  graph_read junk plenty EndCases.bits32
    (one_file (front14 2 0 4294967296 4294967299 1152921504606846981 ++ rows14 ++ arcs14)) (lit "g") = Ok (Some TotalCases.graph9).
Proof. exact wrapped14. Qed.
Print Assumptions graph_wrong_numbers_refuted.
