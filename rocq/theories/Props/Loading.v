(** Loading models: what is loaded (C71), what is released (C72), error texts (C73),
    crashes (C74) and damaged text files (C95). *)
From Coq Require Import ZArith Reals String List.
From Verif.Base Require Import Prelude.
From Verif.Model Require Import Util Arith Srfft FbankInit SymbolTable Fst Decoder Stt Loading Exact.
From Verif.Spec Require Import AudioSpec FormatSpec TextSpec FstSpec LoadingSpec.
From Verif.Proof Require Loading LoadingCases.
Import ListNotations.
Open Scope Z_scope.

(** * C71 *)

Theorem load_stored_model : forall F (O : fops F) T I junk junk_int of_word unknown files hclg why lm_fuel fn m fb,
  stored O of_word files hclg fn m -> fbank_new O T I junk junk_int = Ok fb ->
  exists rc ps, stt_init O T I junk junk_int of_word unknown files hclg why lm_fuel fn = Ok (inl rc, ps) /\
    made_of O of_word T I junk junk_int lm_fuel m rc.
Proof. exact @Proof.LoadingCases.loaded_parts. Qed.
Print Assumptions load_stored_model.

(** A model with a network of three layers, five words and a language model. *)
Example load_stored_model_case : forall junk junk_int unknown why lm_fuel,
  stored rops IZR (Proof.LoadingCases.files9 Proof.LoadingCases.config9_text [7; 0]) Proof.LoadingCases.hclg9
    (lit "d/m") Proof.LoadingCases.model9 /\
  exists rc ps, Proof.LoadingCases.init9 junk junk_int unknown why lm_fuel Proof.LoadingCases.config9_text [7; 0]
    = Ok (inl rc, ps) /\
    made_of rops IZR rtrig rinit junk junk_int lm_fuel Proof.LoadingCases.model9 rc.
Proof. exact Proof.LoadingCases.stored_loaded9. Qed.
Print Assumptions load_stored_model_case.

(** Nothing incomplete is loaded. *)
Theorem load_only_complete : forall F (O : fops F) T I junk junk_int of_word unknown files hclg why lm_fuel fn rc ps,
  stt_init O T I junk junk_int of_word unknown files hclg why lm_fuel fn = Ok (inl rc, ps) ->
  exists content, files fn = Some content /\
  forall lines, config_lines content lines -> forall ns, all_needs O of_word lines ns ->
  Forall (available files hclg fn lines) ns /\
  forall key good, In (key, DataFile good) ns -> In key [lit "prior"; lit "tid2pdf"; lit "original_lm"] ->
  exists p x, points_to fn lines key p /\ files p = Some x /\ (byte_list x -> exists v, is_vector v x).
Proof. exact @Proof.Loading.only_complete. Qed.
Print Assumptions load_only_complete.

(** * C72 *)

(** Neither a failed construction nor the destructor releases the recognizer itself. *)
Theorem load_release_refuted : forall F (O : fops F) T I junk junk_int of_word unknown files hclg why lm_fuel fn r ps,
  stt_init O T I junk junk_int of_word unknown files hclg why lm_fuel fn = Ok (r, ps) ->
  stt_destroy ps <> [] /\ forall msg, r = inr msg -> ps <> [].
Proof. exact @Proof.LoadingCases.something_left. Qed.
Print Assumptions load_release_refuted.

(** It is all that is left. *)
Theorem load_release_partial : forall F (O : fops F) T I junk junk_int of_word unknown files hclg why lm_fuel fn r ps,
  stt_init O T I junk junk_int of_word unknown files hclg why lm_fuel fn = Ok (r, ps) ->
  stt_destroy ps = [Recognizer] /\ forall msg, r = inr msg -> ps = [Recognizer].
Proof. exact @Proof.Loading.init_leaves. Qed.
Print Assumptions load_release_partial.

(** * C73 *)

Theorem load_no_configuration : forall F (O : fops F) T I junk junk_int of_word unknown files hclg why lm_fuel fn,
  files fn = None ->
  stt_init O T I junk junk_int of_word unknown files hclg why lm_fuel fn = Ok (inr (no_file_text fn), [Recognizer]).
Proof. exact @Proof.Loading.no_config. Qed.
Print Assumptions load_no_configuration.

Theorem load_missing_file : forall F (O : fops F) T I junk junk_int of_word unknown files hclg why lm_fuel
    fn content lines ns before n after msg,
  files fn = Some content -> config_lines content lines -> all_needs O of_word lines ns ->
  ns = before ++ n :: after -> Forall (met files hclg fn lines) before -> no_file files hclg fn lines n msg ->
  stt_init O T I junk junk_int of_word unknown files hclg why lm_fuel fn = Ok (inr msg, [Recognizer]).
Proof. exact @Proof.LoadingCases.missing_file. Qed.
Print Assumptions load_missing_file.

Example load_missing_file_case : forall junk junk_int unknown why lm_fuel,
  Proof.LoadingCases.init9 junk junk_int unknown why lm_fuel (Proof.LoadingCases.changed "prior=q") [7; 0]
  = Ok (inr (lit "IOError: Unable to open d/q"), [Recognizer]).
Proof. exact Proof.LoadingCases.no_file9. Qed.
Print Assumptions load_missing_file_case.

(** The message names the key and the configuration file, unless the key is one of three. *)
Theorem load_missing_key_partial : forall F (O : fops F) T I junk junk_int of_word unknown files hclg why lm_fuel
    fn content lines ns before key k after,
  files fn = Some content -> config_lines content lines -> all_needs O of_word lines ns ->
  ns = before ++ (key, k) :: after -> Forall (met files hclg fn lines) before -> last_value lines key None ->
  ~ In key [lit "fst"; lit "symbol_table"; lit "original_lm"] ->
  stt_init O T I junk junk_int of_word unknown files hclg why lm_fuel fn = Ok (inr (no_key_text fn key), [Recognizer]).
Proof. exact @Proof.LoadingCases.missing_key. Qed.
Print Assumptions load_missing_key_partial.

Example load_missing_key_case : forall junk junk_int unknown why lm_fuel,
  Proof.LoadingCases.init9 junk junk_int unknown why lm_fuel (text [lit "fst=g"] ++ lit "nnet=/n") [7; 0]
  = Ok (inr (lit "Corruption: Unable to find key 'prior' in 'd/m'"), [Recognizer]).
Proof. exact Proof.LoadingCases.no_key9. Qed.
Print Assumptions load_missing_key_case.

(** For these three it does not depend on the name of the configuration file. *)
Theorem load_missing_key_refuted : forall F (O : fops F) T I junk junk_int of_word unknown files hclg why lm_fuel
    fn content lines ns before key k after,
  files fn = Some content -> config_lines content lines -> all_needs O of_word lines ns ->
  ns = before ++ (key, k) :: after -> Forall (met files hclg fn lines) before -> last_value lines key None ->
  In key [lit "fst"; lit "symbol_table"; lit "original_lm"] ->
  stt_init O T I junk junk_int of_word unknown files hclg why lm_fuel fn
  = Ok (inr (lit "Corruption: Unable to find key '" ++ key ++ lit "' in "), [Recognizer]).
Proof. exact @Proof.LoadingCases.missing_unnamed. Qed.
Print Assumptions load_missing_key_refuted.

(** With empty files. *)
Example load_missing_key_refuted_case : forall F (O : fops F) T I junk junk_int of_word unknown hclg why lm_fuel fn,
  stt_init O T I junk junk_int of_word unknown (fun _ => Some []) hclg why lm_fuel fn
  = Ok (inr (lit "Corruption: Unable to find key 'fst' in "), [Recognizer]).
Proof. exact @Proof.LoadingCases.empty_config. Qed.
Print Assumptions load_missing_key_refuted_case.

(** * C74 *)

Theorem load_total_refuted : forall junk junk_int unknown why lm_fuel,
  Proof.LoadingCases.init9 junk junk_int unknown why lm_fuel Proof.LoadingCases.config9_text [7; -1] = Fault Assert /\
  Proof.LoadingCases.init9 junk junk_int unknown why lm_fuel (Proof.LoadingCases.changed "left_context=one") [7; 0]
  = Fault Throw.
Proof. exact Proof.LoadingCases.crashes9. Qed.
Print Assumptions load_total_refuted.

(** Any negative prior fails an assertion, and any number that is none ends in an exception. *)
Theorem load_negative_prior_refuted : forall F (O : fops F) T I junk junk_int of_word unknown files hclg why lm_fuel
    fn content lines v,
  files fn = Some content -> config_lines content lines -> Forall (met files hclg fn lines) (firstn 2 (needs O of_word)) ->
  stored_at files fn lines (lit "prior") (is_vector v) -> Exists (fun w => f_nonneg O (of_word w) = false) v ->
  stt_init O T I junk junk_int of_word unknown files hclg why lm_fuel fn = Fault Assert.
Proof. exact @Proof.Loading.negative_prior. Qed.
Print Assumptions load_negative_prior_refuted.

Theorem load_no_number_refuted : forall F (O : fops F) T I junk junk_int of_word unknown files hclg why lm_fuel
    fn content lines s x,
  files fn = Some content -> config_lines content lines -> Forall (met files hclg fn lines) (firstn 3 (needs O of_word)) ->
  setting lines (lit "left_context") (x :: s) -> 65 <= x ->
  stt_init O T I junk junk_int of_word unknown files hclg why lm_fuel fn = Fault Throw.
Proof. exact @Proof.Loading.no_number. Qed.
Print Assumptions load_no_number_refuted.

(** * C95 *)

Theorem load_damaged_configuration : forall F (O : fops F) T I junk junk_int of_word unknown files hclg why lm_fuel
    fn content ps e rs bad,
  files fn = Some content -> pieces content ps e -> Forall2 shown ps rs ->
  In bad rs -> ~ no_effect bad -> (forall k v, ~ taken bad k v) ->
  stt_init O T I junk junk_int of_word unknown files hclg why lm_fuel fn = Ok (inr (why fn), [Recognizer]).
Proof. exact @Proof.Loading.damaged_config. Qed.
Print Assumptions load_damaged_configuration.

Theorem load_damaged_words : forall F (O : fops F) T I junk junk_int of_word unknown files hclg why lm_fuel
    fn content lines p x ps e rs,
  files fn = Some content -> config_lines content lines ->
  Forall (met files hclg fn lines) (firstn 8 (needs O of_word)) ->
  points_to fn lines (lit "symbol_table") p -> files p = Some x -> pieces x ps e -> Forall2 shown ps rs ->
  (forall l w id, In l rs -> word_entry l w id -> 0 <= id < 288230376151711743) ->
  (forall es, ~ words_entries x es) ->
  stt_init O T I junk junk_int of_word unknown files hclg why lm_fuel fn = Ok (inr (why p), [Recognizer]).
Proof. exact @Proof.Loading.damaged_words. Qed.
Print Assumptions load_damaged_words.

(** A line "nonsense" in the configuration, and a binary file as words file. *)
Example load_damaged_case : forall junk junk_int unknown why lm_fuel,
  Proof.LoadingCases.init9 junk junk_int unknown why lm_fuel (Proof.LoadingCases.changed "nonsense") [7; 0]
  = Ok (inr (why (lit "d/m")), [Recognizer]) /\
  Proof.LoadingCases.init9 junk junk_int unknown why lm_fuel (Proof.LoadingCases.changed "symbol_table=p") [7; 0]
  = Ok (inr (why (lit "d/p")), [Recognizer]).
Proof. exact Proof.LoadingCases.damaged9. Qed.
Print Assumptions load_damaged_case.

(** A recognizer that was made has all words of its words file, and nothing was damaged. *)
Theorem load_only_intact : forall F (O : fops F) T I junk junk_int of_word unknown files hclg why lm_fuel fn rc ps,
  stt_init O T I junk junk_int of_word unknown files hclg why lm_fuel fn = Ok (inl rc, ps) ->
  exists content, files fn = Some content /\
  (forall cs e rs, pieces content cs e -> Forall2 shown cs rs ->
     Forall (fun l => no_effect l \/ exists k v, taken l k v) rs) /\
  forall lines, config_lines content lines ->
  exists p x es, points_to fn lines (lit "symbol_table") p /\ files p = Some x /\ words_entries x es /\
    (forall i, 0 <= i -> (exists e, In e es /\ i <= snd e) ->
       (exists e, last_such (fun e => snd e = i) es e /\ sym_get (rc_symbols rc) i = Ok (Datatypes.fst e)) \/
       (Forall (fun e => snd e <> i) es /\ sym_get (rc_symbols rc) i = Ok [])) /\
    (forall i, -2147483648 <= i <= 2147483647 -> i < 0 \/ Forall (fun e => snd e < i) es ->
       sym_get (rc_symbols rc) i = Fault Assert) /\
    (forall w, (exists e, last_such (fun e => Datatypes.fst e = w) es e /\
                  sym_id (rc_symbols rc) w = (snd e + 2147483648) mod 4294967296 - 2147483648) \/
               (Forall (fun e => Datatypes.fst e <> w) es /\ sym_id (rc_symbols rc) w = -1)) /\
    s_bos (rc_symbols rc) = sym_id (rc_symbols rc) (lit "<s>") /\ s_eos (rc_symbols rc) = sym_id (rc_symbols rc) (lit "</s>").
Proof. exact @Proof.Loading.loaded_words. Qed.
Print Assumptions load_only_intact.
