(** What failed calls answer and say (C104), state numbers beyond the range of
    the hash function (C76), how the program is called (C66). *)
From Coq Require Import ZArith String List.
From Verif.Base Require Import Prelude.
From Verif.Model Require Import Util File Arith Pcm Fst Decoder Stt Main.
From Verif.Spec Require Import AudioSpec PcmSpec TextSpec SttSpec ProgramSpec CallTextSpec.
From Verif.Proof Require CallTexts.
Import ListNotations.
Open Scope Z_scope.

(** * C104 *)

Theorem format_refused : forall F D C (O : fops F) (X : xops F D) tenth fuel err (rc : recognizer F C) f msg r err',
  lenZ err = 2048 -> unsupported_text f msg -> utt_init O X tenth fuel err rc f = Ok (r, err') ->
  r = None /\ last_error err' = firstn (Z.to_nat 2047) msg /\ lenZ err' = 2048.
Proof. exact @Proof.CallTexts.refused_format. Qed.
Print Assumptions format_refused.

(** Every format that is not supported has a text, and no other; other theorems call it [set_format_error]. *)
Theorem format_texts : forall f, (~ supported f <-> exists msg, unsupported_text f msg) /\
  forall msg, unsupported_text f msg -> msg = set_format_error f.
Proof. exact (fun f => conj (Proof.CallTexts.unsupported_has f) (fun msg H => eq_sym (Proof.CallTexts.format_error_text f msg H))). Qed.
Print Assumptions format_texts.

Theorem audio_refused : forall F D C (O : fops F) (X : xops F D) tenth fuel err (v : utt F C) i rc data size msg,
  lenZ err = 2048 -> u_internal v = Some i -> i_recognizer i = Some rc -> audio_text data size msg ->
  exists err', stt_process O X tenth fuel err (Some v) data size = Ok (-1, Some v, err') /\
    last_error err' = firstn (Z.to_nat 2047) msg /\ lenZ err' = 2048.
Proof. exact @Proof.CallTexts.refused_audio. Qed.
Print Assumptions audio_refused.

Theorem handle_refused : forall F D C (O : fops F) (X : xops F D) tenth fuel err (u : option (utt F C)) data size s,
  lenZ err = 2048 -> complaint u = Some s ->
  exists err', stt_process O X tenth fuel err u data size = Ok (-1, u, err') /\ lenZ err' = 2048 /\
    last_error err' = firstn (Z.to_nat 2047) (cstr (lit s)).
Proof. exact @Proof.CallTexts.refused_handle. Qed.
Print Assumptions handle_refused.

Theorem refused_case :
  unsupported_text (mk_format 2 16000 16) (lit "Corruption: num_channels = 2 not supported") /\
  unsupported_text (mk_format 1 8000 16) (lit "Corruption: sample_rate = 8000 not supported") /\
  unsupported_text (mk_format 1 16000 24) (lit "Corruption: bits_per_sample == 8, 16 or 32 expected, but 24 found") /\
  audio_text (Some [1; 2]) (-5) (lit "RuntimeError: unexpected size: -5").
Proof. exact Proof.CallTexts.refusals. Qed.
Print Assumptions refused_case.

(** * C66 *)

Theorem program_usage_text : forall F D C (O : fops F) (X : xops F D) tenth fuel files (load : bytes -> res (recognizer F C + bytes)) header_error args,
  is_usage args -> run_main O X tenth fuel files load header_error args = Ok (usage_text, 1).
Proof. exact @Proof.CallTexts.usage_shown. Qed.
Print Assumptions program_usage_text.

(** * C76 *)

(** Without the bound on hash values in [run_fits] decoding is undefined: a token
    for a state beyond it. *)
Theorem large_states_refuted : forall F C (O : fops F) (d : decoder F C) s label prev cost,
  0 <= Datatypes.fst s -> 0 <= snd s -> (589 + Datatypes.fst s) * 31 + snd s > 2147483647 ->
  insert_tok O d s label prev cost = Fault Undef.
Proof. exact @Proof.CallTexts.large_state. Qed.
Print Assumptions large_states_refuted.

Theorem large_states_case : forall F C (O : fops F) (d : decoder F C) label prev cost,
  insert_tok O d (69273000, 5000) label prev cost = Fault Undef.
Proof. exact @Proof.CallTexts.large_state_case. Qed.
Print Assumptions large_states_case.
