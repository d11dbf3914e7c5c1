(** Properties of the C interface (C49-C52, C67). [O] and [X] are the
    arithmetic of [float] and [double]; no law is assumed unless it is a
    hypothesis. [tenth] is the acoustic scale 0.1f, [fuel] bounds the steps along
    arcs without input label. A session is a number of [ce_stt_process] calls,
    one for every piece of the audio, and [ce_stt_end_of_stream]. *)
From Coq Require Import ZArith String List Lia.
From Verif.Base Require Import Prelude ZMap.
From Verif.Model Require Import Util File Arith Vector Pcm Fbank Am SymbolTable Pool OLabel Fst Decoder Stt.
From Verif.Spec Require Import AudioSpec PcmSpec TextSpec FbankSpec DecoderSpec SttSpec ProgramSpec.
From Verif.Proof Require Import QOps DecoderCases Stt SttCut SttCases.
From Verif.Proof Require PcmCases.
Import ListNotations.
Open Scope Z_scope.

(** * C49 *)
(** Full statement: any two ways of cutting the audio into non-empty pieces.
    Proved for pieces below 536870000 bytes. *)
Theorem transcript_cut_partial : forall F D C (O : fops F) (X : xops F D) tenth fuel err (rc : recognizer F C) f u err0 ps qs,
  utt_init O X tenth fuel err rc f = Ok (Some u, err0) -> Forall piece ps -> Forall piece qs ->
  concat ps = concat qs ->
  alike any (fun x y => let '(ns, hyp, ll) := x in let '(ms, hyp', ll') := y in
           hyp = hyp' /\ ll = ll' /\
           total ns = lenZ (concat ps) / (w_bits f / 8) /\ total ms = lenZ (concat ps) / (w_bits f / 8) /\
           Forall (fun n => 0 <= n) (ns ++ ms))
    (session O X tenth fuel err (Some u) ps) (session O X tenth fuel err (Some u) qs).
Proof. exact cut_any. Qed.
Print Assumptions transcript_cut_partial.

(** Where the features can always be computed, even failures are the same. *)
Theorem transcript_cut_failures_partial : forall F D C (O : fops F) (X : xops F D) tenth fuel err (rc : recognizer F C) f u err0 ps qs,
  tables_fit (rc_fbank rc) ->
  (forall x, f_nonneg O (if f_lt O x (f_eps O) then f_eps O else x) = true) ->
  utt_init O X tenth fuel err rc f = Ok (Some u, err0) -> Forall piece ps -> Forall piece qs ->
  concat ps = concat qs ->
  alike eq (fun x y => Datatypes.snd (Datatypes.fst x) = Datatypes.snd (Datatypes.fst y) /\ Datatypes.snd x = Datatypes.snd y)
    (session O X tenth fuel err (Some u) ps) (session O X tenth fuel err (Some u) qs).
Proof. exact cut_same. Qed.
Print Assumptions transcript_cut_failures_partial.

(** Twenty frames in one piece, or in three cut at odd places. *)
Example transcript_case : exists u, start rc7 no_error 16 = Ok (Some u, no_error) /\
  Forall piece [audio 3440] /\ Forall piece (cut 3440 1 999) /\ concat [audio 3440] = concat (cut 3440 1 999) /\
  forall ps, ps = [audio 3440] \/ ps = cut 3440 1 999 ->
    exists ns, session tops twide (Num 1) 50 no_error (Some u) ps = Ok (ns, lit "so what" ++ [0], Num 0) /\ total ns = 3440.
Proof. exact session7. Qed.

Example transcript_case_tables : tables_fit (rc_fbank rc7) /\
  forall x, f_nonneg tops (if f_lt tops x (f_eps tops) then f_eps tops else x) = true.
Proof. exact (conj bank1_fit trop_nonneg). Qed.

(** A huge piece of 8-bit audio overflows an [int]. *)
Theorem transcript_cut_refuted : exists p, lenZ p = 1073741824 /\ byte_list p /\
  forall F D C (O : fops F) (X : xops F D) tenth fuel err (rc : recognizer F C) u err0,
  utt_init O X tenth fuel err rc (mk_format 1 16000 8) = Ok (Some u, err0) ->
  stt_process O X tenth fuel err0 (Some u) (Some p) (lenZ p) = Fault Undef.
Proof. exact huge_call. Qed.
Print Assumptions transcript_cut_refuted.

(** * C50 *)
Theorem hypothesis_at_end : forall F D C (O : fops F) (X : xops F D) tenth fuel err (v : utt F C) i rc u' err',
  u_internal v = Some i -> i_recognizer i = Some rc ->
  stt_end O X tenth fuel err (Some v) = Ok (u', err') ->
  exists v' i' d words weight, u' = Some v' /\ u_internal v' = Some i' /\ i_recognizer i' = Some rc /\
    reached O X (utt_config O tenth rc) fuel (i_decoder i) d /\ i_decoder i' = end_of_stream d /\
    best_path O X (utt_config O tenth rc) (i_decoder i') = Ok (words, weight) /\
    spells (rc_symbols rc) (rev words) (u_hyp v') /\
    u_loglik v' = (if words then u_loglik v else f_div O weight (f_int O (d_frames d))).
Proof. exact @end_text. Qed.
Print Assumptions hypothesis_at_end.

Theorem hypothesis_so_far : forall F D C (O : fops F) (X : xops F D) tenth fuel err (v : utt F C) i rc data size n u' err',
  u_internal v = Some i -> i_recognizer i = Some rc ->
  stt_process O X tenth fuel err (Some v) data size = Ok (n, u', err') ->
  exists v' i', u' = Some v' /\ u_internal v' = Some i' /\ i_recognizer i' = Some rc /\
    reached O X (utt_config O tenth rc) fuel (i_decoder i) (i_decoder i') /\
    text_of O X (utt_config O tenth rc) fuel (rc_symbols rc) (i_decoder i) (i_decoder i')
      (u_hyp v, u_loglik v) (u_hyp v', u_loglik v').
Proof. exact @process_text. Qed.
Print Assumptions hypothesis_so_far.

Theorem hypothesis_memory : forall symbols words memory, spells symbols words memory ->
  exists names, Forall2 (fun w name => sym_get symbols w = Ok name) words names /\
    cstr memory = join [32] names /\ lenZ memory = lenZ (cstr memory) + 1.
Proof. exact spells_cstr. Qed.
Print Assumptions hypothesis_memory.

Example hypothesis_case : spells symbols1 [5; 7] (lit "so what" ++ [0]) /\ cstr (lit "so what" ++ [0]) = lit "so what" /\
  spells symbols1 [] [0].
Proof. exact spells_case. Qed.

(** * C51 *)
(** Full statement: every call on a null utterance or on one without
    internals. Proved for [ce_stt_process], and for [ce_stt_end_of_stream] of an
    utterance that is not null. *)
Theorem bad_handle_partial : forall F D C (O : fops F) (X : xops F D) tenth fuel err (u : option (utt F C)) s data size,
  lenZ err = error_size -> complaint u = Some s ->
  (exists err', stt_process O X tenth fuel err u data size = Ok (failed, u, err') /\ lenZ err' = error_size /\
    last_error err' = lit s) /\
  (u <> None -> exists err', stt_end O X tenth fuel err u = Ok (u, err') /\ lenZ err' = error_size /\
    last_error err' = lit s).
Proof. exact bad_handle. Qed.
Print Assumptions bad_handle_partial.

Theorem bad_handle_sequence_partial : forall F D C (O : fops F) (X : xops F D) tenth fuel (cs : list (stt_call (F := F) (C := C))) err,
  lenZ err = error_size ->
  Forall (fun c => match c with
                   | CallProcess u _ _ => complaint u <> None
                   | CallEnd u => u <> None /\ complaint u <> None
                   | _ => False
                   end) cs ->
  exists err', for_each cs (call_error O X tenth fuel) err = Ok err' /\ lenZ err' = error_size.
Proof. exact @bad_calls. Qed.
Print Assumptions bad_handle_sequence_partial.

Example bad_handle_case : forall rc : recognizer trop unit,
  complaint (None : option (utt trop unit)) = Some "utt is NULL"%string /\
  complaint (Some (mk_utt (C := unit) None [0] (Num 0))) = Some "utt->internal is NULL"%string /\
  forall v i, u_internal v = Some i -> i_recognizer i = Some rc -> complaint (Some v) = None.
Proof. exact complaints. Qed.

(** The end of the stream of a null utterance, and its destruction. *)
Theorem bad_handle_refuted : forall F D C (O : fops F) (X : xops F D) tenth fuel err,
  stt_end O X tenth fuel err (None : option (utt F C)) = Fault Undef /\ utt_destroy (None : option (utt F C)) = Fault Undef.
Proof. exact bad_end. Qed.
Print Assumptions bad_handle_refuted.

(** * C52 *)
Theorem last_error_history : forall F D C (O : fops F) (X : xops F D) tenth fuel
    (cs : list (stt_call (F := F) (C := C))) err err',
  lenZ err = error_size -> In 0 err ->
  Forall handle cs -> for_each cs (call_error O X tenth fuel) err = Ok err' ->
  exists msgs, Forall2 reported cs msgs /\ lenZ err' = error_size /\ In 0 err' /\
    last_error err' = shown (last_error err) msgs.
Proof. exact @history. Qed.
Print Assumptions last_error_history.

(** The buffer of a fresh program; a long message; a message after a message. *)
Example last_error_case : lenZ no_error = error_size /\ In 0 no_error /\ last_error no_error = [] /\
  exists err err', for_each [CallLoad (C := unit) (Some (repeat 65 (Z.to_nat 3000))); CallLoad None]
                     (call_error tops twide (Num 1) 50) no_error = Ok err /\
    last_error err = repeat 65 (Z.to_nat 2047) /\
    call_error (C := unit) tops twide (Num 1) 50 err (CallProcess None None 7) = Ok err' /\
    last_error err' = lit "utt is NULL".
Proof. exact error_case. Qed.

(** * C67 *)
(** No audio should crash a call. A graph that has no path as long as the audio
    does: [BestPath] dereferences a null pointer. *)
Theorem session_crash_refuted : exists u, start rc4 no_error 16 = Ok (Some u, no_error) /\
  forall ps, Forall piece ps -> concat ps = audio 720 ->
  session tops twide (Num 1) 50 no_error (Some u) ps = Fault Undef.
Proof. exact crash4. Qed.
Print Assumptions session_crash_refuted.

(** So does a collection of labels in the 20th frame: a word that was freed is
    looked up in the symbol table. *)
Theorem session_collection_refuted : exists u, start rc7 no_error 16 = Ok (Some u, no_error) /\
  forall ps, Forall piece ps -> concat ps = audio 3600 ->
  session tops twide (Num 1) 50 no_error (Some u) ps = Fault Assert.
Proof. exact crash7. Qed.
Print Assumptions session_collection_refuted.

Example session_crash_case : Forall piece [audio 720] /\ Forall piece (cut 3600 1 2) /\ concat (cut 3600 1 2) = audio 3600.
Proof. exact crash_pieces. Qed.
