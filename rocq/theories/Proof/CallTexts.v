(** The texts of failed calls. *)
From Coq Require Import ZArith String List Bool Lia.
From Verif.Base Require Import Prelude Lemmas.
From Verif.Model Require Import Util File Arith Pcm Fst Decoder Stt Main.
From Verif.Spec Require Import AudioSpec PcmSpec TextSpec DecoderSpec SttSpec ProgramSpec CallTextSpec.
From Verif.Proof Require Import Text Stt MessagesText MessagesCut.
From Verif.Proof Require Program PcmCases Python SttCases.
Import ListNotations.
Open Scope Z_scope.

Lemma decimal_show z s : decimal z s -> s = to_string z.
Proof. apply decimal_text. Qed.

(** * Formats *)

Lemma format_error_text f msg : unsupported_text f msg -> set_format_error f = msg.
Proof.
  unfold set_format_error. intros [s N D|s E N D|s E E2 N D]; rewrite (decimal_show _ _ D).
  - destruct (Z.eqb_spec (w_channels f) 1); [contradiction|]. cbn [negb]. reflexivity.
  - rewrite E. destruct (Z.eqb_spec (w_rate f) 16000); [contradiction|]. cbn [negb Z.eqb Pos.eqb]. reflexivity.
  - rewrite E, E2. cbn [negb Z.eqb Pos.eqb]. reflexivity.
Qed.

Lemma unsupported_has f : ~ supported f <-> exists msg, unsupported_text f msg.
Proof.
  split.
  - intros N. destruct (Z.eq_dec (w_channels f) 1) as [E|E]; [|eexists; apply U_channels; [exact E|apply Python.to_string_decimal]].
    destruct (Z.eq_dec (w_rate f) 16000) as [E2|E2]; [|eexists; apply U_rate; [exact E|exact E2|apply Python.to_string_decimal]].
    eexists. apply U_bits; [exact E|exact E2| |apply Python.to_string_decimal]. intros J. apply N.
    split; [exact E|]. split; [exact E2|]. cbn [In] in J. unfold valid_width. intuition.
  - intros (msg & H) (C & R & B). destruct H as [s N D|s E N D|s E E2 N D]; [contradiction|contradiction|].
    apply N. unfold valid_width in B. cbn [In]. intuition.
Qed.

Lemma decimal_clean z s : decimal z s -> ~ In 0 s.
Proof.
  intros D. assert (forall n t, decimal_digits n t -> ~ In 0 t) as G.
  { induction 1 as [d H|n t d H H1 IH H2]; [cbn [In]; lia|]. rewrite in_app_iff. cbn [In]. intros [J|[J|[]]]; [contradiction|lia]. }
  destruct D as [n t D|n t P D]; [eauto|]. cbn [In]. intros [J|J]; [lia|]. exact (G _ _ D J).
Qed.

Ltac clean := intros J; vm_compute in J; repeat (destruct J as [J|J]; [discriminate J|]); exact J.

Lemma unsupported_clean f msg : unsupported_text f msg -> ~ In 0 msg.
Proof.
  intros [s N D|s E N D|s E E2 N D]; rewrite !in_app_iff; intros [J|[J|J]]; try (revert J; exact (decimal_clean _ _ D)); revert J; clean.
Qed.

Lemma audio_clean data size msg : audio_text data size msg -> ~ In 0 msg.
Proof. intros [n|d n s L D]; [clean|]. rewrite in_app_iff. intros [J|J]; [revert J; clean|exact (decimal_clean _ _ D J)]. Qed.

Lemma cstr_clean s : ~ In 0 s -> cstr s = s.
Proof.
  induction s as [|c s IH]; intros N; [reflexivity|]. cbn [cstr]. destruct (Z.eqb_spec c 0) as [->|]; [exfalso; apply N; now left|].
  rewrite IH; [reflexivity|]. intros J. apply N. now right.
Qed.

Section Calls.
Context {F D C : Type}.
Variable O : fops F.
Variable X : xops F D.
Variable tenth : F.
Variable fuel : nat.

Lemma refused_format err (rc : recognizer F C) f msg r err' : lenZ err = 2048 -> unsupported_text f msg ->
  utt_init O X tenth fuel err rc f = Ok (r, err') -> r = None /\ last_error err' = firstn (Z.to_nat 2047) msg /\ lenZ err' = 2048.
Proof.
  intros L U E. unfold utt_init in E. inv_bind E. inv_bind E.
  destruct (PcmCases.set_format_cases reader_init f) as [[S1 S2]|[S1 S2]]; rewrite S2 in E.
  - exfalso. assert (~ supported f) as N by (apply unsupported_has; now exists msg). contradiction.
  - inv_bind E. injection E as <- <-. split; [reflexivity|].
    destruct (set_error_ok err (set_format_error f) L) as (e & E1 & E2 & E3 & _). rewrite Hb1 in E1. injection E1 as <-.
    rewrite E3, (format_error_text f msg U), cstr_clean by (eapply unsupported_clean; eassumption). now split.
Qed.

Lemma refused_audio err (v : utt F C) i rc data size msg : lenZ err = 2048 -> u_internal v = Some i -> i_recognizer i = Some rc ->
  audio_text data size msg ->
  exists err', stt_process O X tenth fuel err (Some v) data size = Ok (-1, Some v, err') /\
    last_error err' = firstn (Z.to_nat 2047) msg /\ lenZ err' = 2048.
Proof.
  intros L U1 U2 A. unfold stt_process. rewrite (check_good err v i rc U1 U2). cbn [bind].
  pose proof (audio_clean _ _ _ A) as N. destruct A as [n|d n s S D0].
  - rewrite reader_process_null. cbn [bind]. destruct (set_error_ok err (process_error (@None str) n) L) as (e & -> & E2 & E3 & _). cbn [bind].
    exists e. split; [reflexivity|]. split; [|exact E2]. rewrite E3. f_equal.
  - rewrite reader_process_size by exact S. cbn [bind]. destruct (set_error_ok err (process_error (Some d) n) L) as (e & -> & E2 & E3 & _). cbn [bind].
    exists e. split; [reflexivity|]. split; [|exact E2]. rewrite E3. f_equal.
    unfold process_error. destruct (Z.leb_spec n 0); [|lia]. rewrite format_size, <- (decimal_show _ _ D0), app_assoc.
    apply cstr_clean. exact N.
Qed.

Lemma refused_handle err (u : option (utt F C)) data size s : lenZ err = 2048 -> complaint u = Some s ->
  exists err', stt_process O X tenth fuel err u data size = Ok (-1, u, err') /\ lenZ err' = 2048 /\
    last_error err' = firstn (Z.to_nat 2047) (cstr (lit s)).
Proof.
  intros L H. destruct (check_bad err u s L H) as (err' & E & S1).
  destruct (set_error_ok err (lit s) L) as (e & S2 & S3 & S4 & _). rewrite S1 in S2. injection S2 as <-.
  exists err'. unfold stt_process. rewrite E. cbn [bind]. auto.
Qed.

(** * State numbers *)

Lemma large_state (d : decoder F C) s label prev cost :
  0 <= Datatypes.fst s -> 0 <= snd s -> (589 + Datatypes.fst s) * 31 + snd s > 2147483647 ->
  insert_tok O d s label prev cost = Fault Undef.
Proof.
  intros A B H. unfold insert_tok, idx_find. replace (hash_defined s) with false; [reflexivity|].
  symmetry. unfold hash_defined. destruct s as (a & b). cbn [Datatypes.fst snd] in *. apply andb_false_iff. right.
  unfold in_int32, state_hash, int_max. cbn [Datatypes.fst snd]. apply andb_false_iff. right. apply Z.leb_gt. lia.
Qed.

End Calls.

Lemma usage_shown F D C (O : fops F) (X : xops F D) tenth fuel files (load : bytes -> res (recognizer F C + bytes)) header_error args :
  is_usage args -> run_main O X tenth fuel files load header_error args = Ok (usage_text, 1).
Proof. intros U. rewrite Program.main_usage by exact U. reflexivity. Qed.

Lemma refusals :
  unsupported_text (mk_format 2 16000 16) (lit "Corruption: num_channels = 2 not supported") /\
  unsupported_text (mk_format 1 8000 16) (lit "Corruption: sample_rate = 8000 not supported") /\
  unsupported_text (mk_format 1 16000 24) (lit "Corruption: bits_per_sample == 8, 16 or 32 expected, but 24 found") /\
  audio_text (Some [1; 2]) (-5) (lit "RuntimeError: unexpected size: -5").
Proof.
  split; [apply (U_channels (mk_format 2 16000 16) (lit "2")); [discriminate|exact (Python.to_string_decimal 2)]|].
  split; [apply (U_rate (mk_format 1 8000 16) (lit "8000")); [reflexivity|discriminate|exact (Python.to_string_decimal 8000)]|].
  split; [apply (U_bits (mk_format 1 16000 24) (lit "24")); [reflexivity|reflexivity|clean|exact (Python.to_string_decimal 24)]|].
  apply (A_size [1; 2] (-5) (lit "-5")); [lia|exact (Python.to_string_decimal (-5))].
Qed.

Lemma large_state_case F C (O : fops F) (d : decoder F C) label prev cost :
  insert_tok O d (69273000, 5000) label prev cost = Fault Undef.
Proof. apply large_state; [easy|easy|reflexivity]. Qed.
