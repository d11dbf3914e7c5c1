(** The texts of [ce_stt_last_error] after [ce_stt_init] (C102) and
    [ce_read_pcm_header] (C103). [ml_init] is [stt_init] with the texts of all
    readers; [error_text] in Spec/MessageSpec.v says when which text is due. *)
From Coq Require Import ZArith String List.
From Verif.Base Require Import Prelude.
From Verif.Model Require Import Util File Binary Arith Srfft FbankInit Pcm Formats Fst Decoder Stt Loading Messages.
From Verif.Spec Require Import AudioSpec PcmSpec FormatSpec TextSpec FstSpec MessageSpec.
From Verif.Proof Require Messages MessagesText MessagesInit MessagesCut MessageCases Lm.
Import ListNotations.
Open Scope Z_scope.

(** * C102 *)

(** Apart from texts, nothing differs from [stt_init]: where a reader fails, that one
    has the text it is given. *)
Theorem texts_only : forall F (O : fops F) T I junk junk_int of_word unknown files hclg lm_fuel fn,
  exists w, stt_init O T I junk junk_int of_word unknown files hclg (fun _ => w) lm_fuel fn
    = ml_init O T I junk junk_int of_word unknown files hclg lm_fuel fn.
Proof. exact Proof.Messages.init_same. Qed.
Print Assumptions texts_only.

Theorem error_texts : forall F (O : fops F) T I junk junk_int of_word unknown files (hclg : str -> res (option (graph F))) lm_fuel fn,
  ~ contains fn (lit "{}") -> forall msg ps,
  ml_init O T I junk junk_int of_word unknown files hclg lm_fuel fn = Ok (inr msg, ps) -> error_text files hclg fn msg.
Proof. exact @Proof.MessagesInit.init_says. Qed.
Print Assumptions error_texts.

Theorem error_texts_case : forall F (O : fops F) T I junk junk_int of_word unknown lm_fuel (g : graph F),
  f_nonneg O (of_word 0) = true ->
  let init := Proof.MessageCases.init10 O T I junk junk_int of_word unknown lm_fuel g in
  let net := Proof.MessageCases.net10 in let words := Proof.MessageCases.words10 in
  let conf := Proof.MessageCases.text10 Proof.MessageCases.conf10 in
  let text := Proof.MessageCases.text10 in
  init (lit "d/m") (text ["fst=g"; "a b"; ""]%string) net words [] = Ok (inr (lit "Corruption: Unexpected line in d/m: a b"), [Recognizer]) /\
  init (lit "d/m") (text ["fst=g"; " Prior ="; ""]%string) net words [] = Ok (inr (lit "Corruption: Unexpected line in d/m: Prior ="), [Recognizer]) /\
  init (lit "d/m") (text ["fst=g"; " Prior =="; ""]%string) net words [] = Ok (inr (lit "Corruption: Value cound not be empty: d/m"), [Recognizer]) /\
  init (lit "d/m") (text ["fst=g"; "nnet=q"; ""]%string) net words [] = Ok (inr (lit "IOError: Unable to open d/q"), [Recognizer]) /\
  init (lit "d/m") (text ["fst=g"; "nnet=n"; ""]%string) net words []
    = Ok (inr (lit "Corruption: Unable to find key 'prior' in 'd/m'"), [Recognizer]) /\
  init (lit "d/m") conf net (text ["</s> 1"; "so 2"; ""]%string) []
    = Ok (inr (lit "Corruption: symbol_table: unable to find BOS/EOS symbol"), [Recognizer]) /\
  init (lit "d/m") conf net (text ["<s> 1"; "</s> 2"]%string) [] = Ok (inr (lit "IOError: EOF already reached: d/w"), [Recognizer]) /\
  init (lit "d/m") conf net words (firstn 60 (fst_file Proof.Lm.example_lm)) = Ok (inr (lit "IOError: failed to read: d/l"), [Recognizer]) /\
  ~ contains (lit "d/m") (lit "{}").
Proof. exact @Proof.MessageCases.example_texts. Qed.
Print Assumptions error_texts_case.

(** Full statement: the text names a file that is missing or damaged. Missing: the
    texts in [nameless], and a configuration whose name has braces in it. *)
Theorem error_names_file_partial : forall F (hclg : str -> res (option (graph F))) files fn msg,
  error_text files hclg fn msg ->
  (exists p, at_fault files hclg fn p /\ contains msg p) \/ nameless msg.
Proof. exact @Proof.MessagesInit.fault_named. Qed.
Print Assumptions error_names_file_partial.

(** The key [fst] or [original_lm] missing, words files with a bad line, a splice
    layer of negative length, a language model of another size. *)
Theorem error_names_file_refuted : forall F (O : fops F) T I junk junk_int of_word unknown lm_fuel (g : graph F),
  f_nonneg O (of_word 0) = true ->
  let unhelpful := Proof.MessageCases.unhelpful O T I junk junk_int of_word unknown lm_fuel g in
  let net := Proof.MessageCases.net10 in let words := Proof.MessageCases.words10 in
  let conf := Proof.MessageCases.text10 Proof.MessageCases.conf10 in
  let text := Proof.MessageCases.text10 in
  unhelpful [] net words [] /\
  unhelpful (text (firstn 10 Proof.MessageCases.conf10 ++ [""%string])) net words [] /\
  unhelpful conf net (text ["<s> 1"; "so"; ""]%string) [] /\
  unhelpful conf net (text ["<s> 1"; "so b2"; ""]%string) [] /\
  unhelpful conf (lit "NN02" ++ word 1 ++ word 1 ++ word 1 ++ lit "LAY0" ++ word 6 ++ word (-1)) words [] /\
  unhelpful conf net words (lit "pk::fst_0" ++ repeat 0 23 ++ word 30 ++ word 1 ++ word 0 ++ word 0).
Proof. exact @Proof.MessageCases.unhelpful_texts. Qed.
Print Assumptions error_names_file_refuted.

(** A configuration named d/{} with the line "a b": the line is put into the name. *)
Theorem brace_name_refuted : forall F (O : fops F) T I junk junk_int of_word unknown lm_fuel (g : graph F),
  Proof.MessageCases.init10 O T I junk junk_int of_word unknown lm_fuel g (lit "d/{}") (Proof.MessageCases.text10 ["a b"; ""]%string)
    Proof.MessageCases.net10 Proof.MessageCases.words10 []
    = Ok (inr (lit "Corruption: Unexpected line in d/a b: {}"), [Recognizer]) /\
  ~ contains (lit "Corruption: Unexpected line in d/a b: {}") (lit "d/{}").
Proof. exact @Proof.MessageCases.brace_text. Qed.
Print Assumptions brace_name_refuted.

(** Files that are cut short, of another kind or of another size. *)
Theorem vector_texts : forall name,
  (forall v k, storable v -> (k < length (vector_file v))%nat ->
     exists f, m_vector name (open (firstn k (vector_file v))) = Ok (inr (lit "IOError: failed to read: " ++ name), f)) /\
  (forall b rest, other_tag (lit "VEC0") b ->
     exists f, m_vector name (open (b ++ rest)) = Ok (inr (tag_text (lit "VEC0") b ++ name), f)) /\
  (forall size dim s d rest, fits 4 size -> fits 4 dim -> size <> dim * 4 + 4 -> decimal size s -> decimal dim d ->
     exists f, m_vector name (open (lit "VEC0" ++ word size ++ word dim ++ rest))
       = Ok (inr (lit "Corruption: section_size = " ++ d ++ lit " * 4 + 4 expected, but " ++ s ++ lit " found: " ++ name), f)).
Proof. exact Proof.MessagesCut.damaged_vector. Qed.
Print Assumptions vector_texts.

Theorem network_texts : forall name b rest, other_tag (lit "NN02") b ->
  exists f, m_nnet name (open (b ++ rest)) = Ok (inr (tag_text (lit "NN02") b ++ name), f).
Proof. exact Proof.MessagesCut.damaged_network. Qed.
Print Assumptions network_texts.

Theorem lm_texts : forall name,
  (forall t k, fst_storable t -> (k < length (fst_file t))%nat ->
     exists f, m_fst name (open (firstn k (fst_file t))) = Ok (inr (lit "IOError: failed to read: " ++ name), f)) /\
  (forall h c rest, length h = 32%nat -> before_nul (firstn 31 h) c -> c <> lit "pk::fst_0" ->
     exists f, m_fst name (open (h ++ rest)) = Ok (inr (lit "Corruption: " ++ name), f)).
Proof. exact Proof.MessagesCut.damaged_lm. Qed.
Print Assumptions lm_texts.

Theorem vector_texts_case : forall name, storable [7; 0] /\ Z.of_nat (length (vector_file [7; 0])) = 20 /\
  (exists f, m_vector name (open (firstn 9 (vector_file [7; 0]))) = Ok (inr (lit "IOError: failed to read: " ++ name), f)) /\
  other_tag (lit "VEC0") (lit "MAT0") /\ other_tag (lit "NN02") (lit "AM02").
Proof. exact Proof.MessageCases.cut_vector_case. Qed.
Print Assumptions vector_texts_case.

(** * C103 *)

(** Apart from the text, nothing differs from [read_pcm_header]. *)
Theorem header_texts_only : forall content,
  match header_text content with
  | Ok None => exists w f, read_pcm_header (open content) = Ok (Some w, f)
  | Ok (Some _) => exists f, read_pcm_header (open content) = Ok (None, f)
  | Fault e => read_pcm_header (open content) = Fault e
  end.
Proof. exact Proof.MessageCases.header_alike. Qed.
Print Assumptions header_texts_only.

Theorem header_texts : forall content msg, header_error content msg -> header_text content = Ok (Some msg).
Proof. exact Proof.MessagesCut.header_says. Qed.
Print Assumptions header_texts.

Theorem header_texts_case :
  header_error (lit "RIFX" ++ [1; 2]) (lit "Corruption: ReadAndVerifyString: 'RIFF' expected but 'RIFX' found in ") /\
  header_error (known_fields 36 1 16000 16000 2 16 ++ [5]) (lit "Corruption: bytes_rate == 32000 expected, but 16000 found: ") /\
  header_error (firstn 40 (pcm_header 36 1 16000 32000 2 16 0)) (lit "IOError: failed to read: ").
Proof. exact Proof.MessageCases.header_cases. Qed.
Print Assumptions header_texts_case.

(** That the text shows the value that is wrong fails for the block alignment: what
    is shown as found is the byte rate. *)
Theorem align_text_refuted :
  header_text (pcm_header 36 1 16000 32000 7 16 0) = header_text (pcm_header 36 1 16000 32000 9 16 0) /\
  header_text (pcm_header 36 1 16000 32000 7 16 0) = Ok (Some (lit "Corruption: block_align == 2 expected, but 32000 found: ")).
Proof. exact Proof.MessagesCut.align_text_same. Qed.
Print Assumptions align_text_refuted.
