(** What the errors for damaged files say. *)
From Coq Require Import ZArith String List Bool.
From Verif.Base Require Import Prelude.
From Verif.Model Require Import Fst Decoder Stt.
From Verif.Spec Require Import AudioSpec PcmSpec FormatSpec TextSpec FstSpec LoadingSpec LoadFaultSpec.
Import ListNotations.
Open Scope Z_scope.

(** ** Configurations *)

Definition config_line (l : str) : Prop := no_effect l \/ exists k v, taken l k v.

(** An entry with nothing between two equal signs. *)
Definition empty_entry (t : str) : Prop := exists k b, t = k ++ [61] ++ b ++ [61] /\ ~ In 61 k /\ all_white b.

(** The text for the first line of the configuration [content] of the name [fn]
    that is none. *)
Definition config_text (fn content msg : str) : Prop :=
  exists ps e rs good bad rest t, pieces content ps e /\ Forall2 shown ps rs /\ rs = good ++ bad :: rest /\
    Forall config_line good /\ ~ config_line bad /\ trimmed bad t /\
    (empty_entry t /\ msg = lit "Corruption: Value cound not be empty: " ++ fn \/
     ~ empty_entry t /\ msg = lit "Corruption: Unexpected line in " ++ fn ++ lit ": " ++ t).

(** ** Words files *)

(** The number of columns: one more than there are spaces, but nothing behind the
    last space is none. *)
Definition columns (l : str) (n : Z) : Prop :=
  exists fs, n = Z.of_nat (length fs) /\ Forall (fun f => ~ In 32 f) fs /\
    (l = join [32] fs /\ (forall r f, fs = r ++ [f] -> f <> []) \/ fs <> [] /\ l = join [32] (fs ++ [[]])).

Definition entry_line (l : str) : Prop := exists w id, word_entry l w id.

(** The text for a line that is no entry. *)
Definition line_text (bad msg : str) : Prop :=
  (exists n d, columns bad n /\ n <> 2 /\ decimal n d /\
     msg = lit "Corruption: 2 column expected but " ++ d ++ lit " found: " ++ bad) \/
  (exists w num t, columns bad 2 /\ (bad = w ++ 32 :: num \/ bad = w ++ 32 :: num ++ [32]) /\ ~ In 32 w /\ ~ In 32 num /\
     (forall id, ~ long_number num id) /\ trimmed num t /\
     msg = lit "Corruption: unexpected number string: " ++ t).

(** The text for a words file of the name [p]: for the first line that is no entry;
    if there is none, for a last line that is not complete; if it is complete, for a
    missing symbol. *)
Definition words_text (p content msg : str) : Prop :=
  exists ps e rs, pieces content ps e /\ Forall2 shown ps rs /\
    ((exists good bad rest, rs = good ++ bad :: rest /\ Forall entry_line good /\ ~ entry_line bad /\ line_text bad msg) \/
     (Forall entry_line rs /\ e = true /\ msg = lit "IOError: EOF already reached: " ++ p) \/
     (Forall entry_line rs /\ e = false /\
      (exists s, (s = lit "<s>" \/ s = lit "</s>") /\ forall l id, In l rs -> ~ word_entry l s id) /\
      msg = lit "Corruption: symbol_table: unable to find BOS/EOS symbol")).

(** ** Loading *)

Section Errors.
Context {F : Type}.
Variable files : str -> option str.
Variable hclg : str -> res (option (graph F)).
Variable fn : str.

Notation value := (config_value files fn).

(** The configuration names the file [p] for [key]. *)
Definition named (key p : str) : Prop := exists v, value key v /\ v <> reserved /\ located fn v p.

(** The configuration has no value, or no number, for [key]. *)
Definition unset (key : str) : Prop := forall v, value key v -> v = reserved.
Definition unset_number (key : str) : Prop :=
  forall v, value key v -> v = reserved \/ forall z, decimal z v -> ~ -2147483648 < z <= 2147483647.

Definition network_content (c : str) : Prop := exists ls, is_network ls c.
Definition vector_content (c : str) : Prop := exists v, is_vector v c.
Definition lm_content (c : str) : Prop := exists t rest, c = fst_file t ++ rest /\ fst_storable t.

(** The texts of [ce_stt_init] and what must be the case for them. *)
Inductive error_text : str -> Prop :=
| E_config : files fn = None -> error_text (no_file_text fn)
| E_line content msg : files fn = Some content -> config_text fn content msg -> error_text msg
| E_key key : In key [lit "nnet"; lit "prior"; lit "tid2pdf"] -> unset key -> error_text (no_key_text fn key)
| E_number key : In key [lit "left_context"; lit "right_context"; lit "chunk_size"; lit "num_pdfs"] -> unset_number key ->
    error_text (no_key_text fn key)
| E_key_only key : In key [lit "fst"; lit "symbol_table"; lit "original_lm"] -> unset key ->
    error_text (lit "Corruption: Unable to find key '" ++ key ++ lit "' in ")
| E_graph p : named (lit "fst") p -> hclg p = Ok None -> error_text (lit "IOError: " ++ p)
| E_file key p : In key [lit "nnet"; lit "prior"; lit "tid2pdf"; lit "symbol_table"; lit "original_lm"; lit "large_lm"] ->
    named key p -> files p = None -> error_text (no_file_text p)
| E_vector key p c msg : In key [lit "prior"; lit "tid2pdf"; lit "original_lm"] -> named key p -> files p = Some c ->
    ~ vector_content c -> contains msg p -> error_text msg
| E_network p c msg : named (lit "nnet") p -> files p = Some c -> ~ network_content c -> contains msg p -> error_text msg
| E_splice p c : named (lit "nnet") p -> files p = Some c -> ~ network_content c ->
    error_text (lit "Corruption: SpliceLayer: unexpected num_indcies")
| E_words p c msg : named (lit "symbol_table") p -> files p = Some c -> words_text p c msg -> error_text msg
| E_lm p c msg : named (lit "large_lm") p -> files p = Some c -> ~ lm_content c -> contains msg p -> error_text msg
| E_lm_size p c a b x y : named (lit "large_lm") p -> files p = Some c -> ~ lm_content c -> decimal a x -> decimal b y -> a <> b ->
    error_text (lit "Corruption: section_size == " ++ x ++ lit " expected, but " ++ y ++ lit " found").

(** Texts in which no file is named. *)
Definition nameless (msg : str) : Prop :=
  (exists key, In key [lit "fst"; lit "symbol_table"; lit "original_lm"] /\
     msg = lit "Corruption: Unable to find key '" ++ key ++ lit "' in ") \/
  msg = lit "Corruption: SpliceLayer: unexpected num_indcies" \/
  msg = lit "Corruption: symbol_table: unable to find BOS/EOS symbol" \/
  (exists a b, msg = lit "Corruption: section_size == " ++ a ++ lit " expected, but " ++ b ++ lit " found") \/
  (exists a b, msg = lit "Corruption: 2 column expected but " ++ a ++ lit " found: " ++ b) \/
  (exists a, msg = lit "Corruption: unexpected number string: " ++ a).

(** The configuration is missing, has a bad line, or lacks a key or a number. *)
Definition config_at_fault : Prop :=
  files fn = None \/
  (exists content ps e rs, files fn = Some content /\ pieces content ps e /\ Forall2 shown ps rs /\ Exists (fun l => ~ config_line l) rs) \/
  (exists key, In key [lit "nnet"; lit "prior"; lit "tid2pdf"] /\ unset key) \/
  (exists key, In key [lit "left_context"; lit "right_context"; lit "chunk_size"; lit "num_pdfs"] /\ unset_number key).

(** Files of the model that are missing or damaged. *)
Definition at_fault (p : str) : Prop :=
  p = fn /\ config_at_fault \/
  (named (lit "fst") p /\ hclg p = Ok None) \/
  (exists key, In key [lit "nnet"; lit "prior"; lit "tid2pdf"; lit "symbol_table"; lit "original_lm"; lit "large_lm"] /\
     named key p /\ files p = None) \/
  exists c, files p = Some c /\
    ((named (lit "nnet") p /\ ~ network_content c) \/
     (exists key, In key [lit "prior"; lit "tid2pdf"; lit "original_lm"] /\ named key p /\ ~ vector_content c) \/
     (named (lit "symbol_table") p /\ forall es, ~ words_entries c es) \/
     (named (lit "large_lm") p /\ ~ lm_content c)).

End Errors.

(** ** Audio headers *)

(** Four bytes that are not the expected ones and can be shown in a text. *)
Definition other_tag (expected b : str) : Prop :=
  length b = 4%nat /\ b <> expected /\ ~ In 0 b /\ ~ In 123 b /\ ~ In 125 b.

Definition tag_text (expected b : str) : str :=
  lit "Corruption: ReadAndVerifyString: '" ++ expected ++ lit "' expected but '" ++ b ++ lit "' found in ".

(** The start of a header up to the bits per sample. *)
Definition known_fields (chunk ch rate brate align bits : Z) : str :=
  lit "RIFF" ++ encode 4 chunk ++ lit "WAVE" ++ lit "fmt " ++ encode 4 16 ++ encode 2 1 ++ encode 2 ch ++ encode 4 rate ++
  encode 4 brate ++ encode 2 align ++ encode 2 bits.

Inductive header_error : str -> str -> Prop :=
| H_riff b rest : other_tag (lit "RIFF") b -> header_error (b ++ rest) (tag_text (lit "RIFF") b)
| H_wave chunk b rest : fits 4 chunk -> other_tag (lit "WAVE") b ->
    header_error (lit "RIFF" ++ encode 4 chunk ++ b ++ rest) (tag_text (lit "WAVE") b)
| H_fmt chunk b rest : fits 4 chunk -> other_tag (lit "fmt ") b ->
    header_error (lit "RIFF" ++ encode 4 chunk ++ lit "WAVE" ++ b ++ rest) (tag_text (lit "fmt ") b)
| H_sub chunk sub s rest : fits 4 chunk -> fits 4 sub -> sub <> 16 -> decimal sub s ->
    header_error (lit "RIFF" ++ encode 4 chunk ++ lit "WAVE" ++ lit "fmt " ++ encode 4 sub ++ rest)
      (lit "Corruption: subchunk1_size == 16 expected, but " ++ s ++ lit " found: ")
| H_format chunk af s rest : fits 4 chunk -> fits 2 af -> af <> 1 -> decimal af s ->
    header_error (lit "RIFF" ++ encode 4 chunk ++ lit "WAVE" ++ lit "fmt " ++ encode 4 16 ++ encode 2 af ++ rest)
      (lit "Corruption: audio_format == 1 expected, but " ++ s ++ lit " found: ")
| H_byte_rate chunk ch rate brate align bits rest x s :
    fits 4 chunk -> fits 2 ch -> fits 4 rate -> fits 4 brate -> fits 2 align -> fits 2 bits ->
    -2147483648 <= rate * bits <= 2147483647 -> brate <> Z.quot (rate * bits) 8 -> decimal (Z.quot (rate * bits) 8) x -> decimal brate s ->
    header_error (known_fields chunk ch rate brate align bits ++ rest)
      (lit "Corruption: bytes_rate == " ++ x ++ lit " expected, but " ++ s ++ lit " found: ")
| H_align chunk ch rate brate align bits rest x s :
    fits 4 chunk -> fits 2 ch -> fits 4 rate -> fits 4 brate -> fits 2 align -> fits 2 bits ->
    -2147483648 <= rate * bits <= 2147483647 -> brate = Z.quot (rate * bits) 8 -> align <> Z.quot bits 8 ->
    decimal (Z.quot bits 8) x -> decimal brate s ->
    header_error (known_fields chunk ch rate brate align bits ++ rest)
      (lit "Corruption: block_align == " ++ x ++ lit " expected, but " ++ s ++ lit " found: ")
| H_data chunk ch rate brate align bits b rest :
    fits 4 chunk -> fits 2 ch -> fits 4 rate -> fits 4 brate -> fits 2 align -> fits 2 bits ->
    -2147483648 <= rate * bits <= 2147483647 -> consistent rate brate align bits -> other_tag (lit "data") b ->
    header_error (known_fields chunk ch rate brate align bits ++ b ++ rest) (tag_text (lit "data") b)
| H_cut chunk ch rate brate align bits size k :
    fits 4 chunk -> fits 2 ch -> fits 4 rate -> fits 4 brate -> fits 2 align -> fits 2 bits -> fits 4 size ->
    -2147483648 <= rate * bits <= 2147483647 -> consistent rate brate align bits ->
    (k < length (pcm_header chunk ch rate brate align bits size))%nat ->
    header_error (firstn k (pcm_header chunk ch rate brate align bits size)) (lit "IOError: failed to read: ").
