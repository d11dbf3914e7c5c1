(** Decoding and sessions that never fail (C76, C77; the part of C67 that
    holds). *)
From Coq Require Import ZArith List Bool.
From Verif.Base Require Import Prelude.
From Verif.Spec Require Import AudioSpec AmSpec FbankSpec PcmSpec DecoderSpec SttSpec TotalSpec SessionSpec.
From Verif.Model Require Import Arith Vector Pcm Fbank Am Pool OLabel Fst Decoder Stt Ieee.
From Verif.Proof Require Import DecoderBase Decoder DecoderCases DecoderTotal SttTotal IeeeLaws IeeeCases TotalCases.
Import ListNotations.
Open Scope Z_scope.

(** * C76 *)
(** Whatever the log probabilities: if a decoder can only come to the states
    [R], which are at most 32766 and whose hash values fit into an [int], and
    finds there what it needs of the graph, the probabilities and the language
    model, then it neither crashes nor loops, and has a hypothesis at any
    time. *)
Theorem decoder_total : forall F D C (O : fops F) (X : xops F D) (cfg : config F C) wm good,
  lm_implements (c_lm cfg) wm good -> divides_well O -> well_founded (fun x y => f_lt O x y = true) -> strict (f_lt O) ->
  forall cache frames R, good cache -> run_fits O X cfg wm good frames R ->
  (forall fuel, run_safe O X cfg fuel cache frames) ->
  exists fuel0 d0 d1 d b, new_decoder cache = Ok d0 /\
    (forall fuel, (fuel0 <= fuel)%nat -> initialize O X cfg fuel d0 = Ok d1 /\
       process_all O X cfg collector fuel d1 frames = Ok (d, b)) /\
    (brief O X cfg wm frames ->
       (exists r, best_path O X cfg d = Ok r) /\
       (ends cfg R -> exists r, best_path O X cfg (end_of_stream d) = Ok r)).
Proof. exact @run_total. Qed.
Print Assumptions decoder_total.

(** If moreover every state has an arc with an input label and costs are finite,
    every frame succeeds. *)
Theorem decoder_succeeds : forall F D C (O : fops F) (X : xops F D) (cfg : config F C) wm good,
  lm_implements (c_lm cfg) wm good -> divides_well O -> well_founded (fun x y => f_lt O x y = true) ->
  rounding O X (c_beam cfg) ->
  forall cache frames R, good cache -> run_fits O X cfg wm good frames R ->
  (forall fuel, run_safe O X cfg fuel cache frames) -> lively cfg R -> finite_costs O X cfg wm frames ->
  exists fuel0 d, d_toks d <> [] /\
    (forall fuel, (fuel0 <= fuel)%nat -> decodes O X cfg collector fuel cache frames d) /\
    (brief O X cfg wm frames ->
       (exists r, best_path O X cfg d = Ok r) /\
       (ends cfg R -> exists r, best_path O X cfg (end_of_stream d) = Ok r)).
Proof. exact @run_succeeds. Qed.
Print Assumptions decoder_succeeds.

(** In single and double precision. *)
Theorem decoder_total_ieee : forall L C (cfg : config float32 C) wm good,
  lm_implements (c_lm cfg) wm good ->
  forall cache frames R, good cache -> run_fits (ieee L) ieee_wide cfg wm good frames R ->
  (forall fuel, run_safe (ieee L) ieee_wide cfg fuel cache frames) ->
  exists fuel0 d0 d1 d b, new_decoder cache = Ok d0 /\
    (forall fuel, (fuel0 <= fuel)%nat -> initialize (ieee L) ieee_wide cfg fuel d0 = Ok d1 /\
       process_all (ieee L) ieee_wide cfg collector fuel d1 frames = Ok (d, b)) /\
    (brief (ieee L) ieee_wide cfg wm frames ->
       (exists r, best_path (ieee L) ieee_wide cfg d = Ok r) /\
       (ends cfg R -> exists r, best_path (ieee L) ieee_wide cfg (end_of_stream d) = Ok r)).
Proof.
  exact (fun L C cfg wm good H => @run_total _ _ _ (ieee L) ieee_wide cfg wm good H (ieee_divides L) (ieee_wf L) (proj1 (ieee_strict L))).
Qed.
Print Assumptions decoder_total_ieee.

Theorem decoder_succeeds_ieee : forall L C (cfg : config float32 C) wm good,
  lm_implements (c_lm cfg) wm good -> f_nonneg (ieee L) (c_beam cfg) = true ->
  f_lt (ieee L) (c_beam cfg) (f_int (ieee L) 18446744073709551616) = true ->
  forall cache frames R, good cache -> run_fits (ieee L) ieee_wide cfg wm good frames R ->
  (forall fuel, run_safe (ieee L) ieee_wide cfg fuel cache frames) -> lively cfg R ->
  finite_costs (ieee L) ieee_wide cfg wm frames ->
  exists fuel0 d, d_toks d <> [] /\
    (forall fuel, (fuel0 <= fuel)%nat -> decodes (ieee L) ieee_wide cfg collector fuel cache frames d) /\
    (brief (ieee L) ieee_wide cfg wm frames ->
       (exists r, best_path (ieee L) ieee_wide cfg d = Ok r) /\
       (ends cfg R -> exists r, best_path (ieee L) ieee_wide cfg (end_of_stream d) = Ok r)).
Proof.
  exact (fun L C cfg wm good H B0 B1 => @run_succeeds _ _ _ (ieee L) ieee_wide cfg wm good H (ieee_divides L) (ieee_wf L) (ieee_rounding L _ B0 B1)).
Qed.
Print Assumptions decoder_succeeds_ieee.

(** * C77, C67 *)
(** [stream] is audio of a supported format: samples [xs] and the bytes [rest] of
    an incomplete one. However it is cut into pieces, the session succeeds, all
    samples are counted, and its text are the words of the best path of a
    decoder that was given the log probabilities for the samples. *)
Theorem session_total : forall F D C (O : fops F) (X : xops F D) tenth (rc : recognizer F C) wm good,
  lm_implements (rc_lm rc) wm good ->
  forall L R c d f xs stream rest,
  features_fit O rc d (map (f_int O) xs) -> am_fits rc L R c d -> supported f ->
  AudioSpec.decodes (Z.to_nat (w_bits f / 8)) stream xs rest ->
  let cfg := utt_config O tenth rc in
  exists rows, rows_of O rc L R (map (f_int O) xs) rows /\
  forall states, divides_well O -> well_founded (fun x y => f_lt O x y = true) -> rounding O X (c_beam cfg) ->
  good (rc_cache rc) -> run_fits O X cfg wm good rows states ->
  (forall fuel, run_safe O X cfg fuel (rc_cache rc) rows) -> lively cfg states -> finite_costs O X cfg wm rows ->
  brief O X cfg wm rows -> ends cfg states -> named rc states ->
  exists fuel0 dec words weight text,
    best_path O X cfg (end_of_stream dec) = Ok (words, weight) /\ spells (rc_symbols rc) (rev words) text /\
    forall fuel err, (fuel0 <= fuel)%nat ->
      DecoderSpec.decodes O X cfg collector fuel (rc_cache rc) rows dec /\
      exists u, utt_init O X tenth fuel err rc f = Ok (Some u, err) /\
      forall ps, Forall piece ps -> concat ps = stream ->
      exists ns ll, session O X tenth fuel err (Some u) ps = Ok (ns, text, ll) /\ total ns = lenZ xs /\
        Forall (fun n => 0 <= n) ns /\
        (words <> [] -> ll = f_div O weight (f_int O (lenZ rows))).
Proof. exact @session_ok. Qed.
Print Assumptions session_total.

(** In single and double precision. *)
Theorem session_total_ieee : forall lib C tenth (rc : recognizer float32 C) wm good,
  let O := ieee lib in let X := ieee_wide in
  lm_implements (rc_lm rc) wm good ->
  forall L R c d f xs stream rest,
  features_fit O rc d (map (f_int O) xs) -> am_fits rc L R c d -> supported f ->
  AudioSpec.decodes (Z.to_nat (w_bits f / 8)) stream xs rest ->
  let cfg := utt_config O tenth rc in
  exists rows, rows_of O rc L R (map (f_int O) xs) rows /\
  forall states, good (rc_cache rc) -> run_fits O X cfg wm good rows states ->
  (forall fuel, run_safe O X cfg fuel (rc_cache rc) rows) -> lively cfg states -> finite_costs O X cfg wm rows ->
  brief O X cfg wm rows -> ends cfg states -> named rc states ->
  exists fuel0 dec words weight text,
    best_path O X cfg (end_of_stream dec) = Ok (words, weight) /\ spells (rc_symbols rc) (rev words) text /\
    forall fuel err, (fuel0 <= fuel)%nat ->
      DecoderSpec.decodes O X cfg collector fuel (rc_cache rc) rows dec /\
      exists u, utt_init O X tenth fuel err rc f = Ok (Some u, err) /\
      forall ps, Forall piece ps -> concat ps = stream ->
      exists ns ll, session O X tenth fuel err (Some u) ps = Ok (ns, text, ll) /\ total ns = lenZ xs /\
        Forall (fun n => 0 <= n) ns /\
        (words <> [] -> ll = f_div O weight (f_int O (lenZ rows))).
Proof. exact session_ieee. Qed.
Print Assumptions session_total_ieee.

(** A recognizer, and audio of 560 samples, that meet the hypotheses. *)
Example session_total_case : forall lib samples rows, rows_of (ieee lib) rc9 0 0 samples rows -> length samples = 560%nat ->
  let O := ieee lib in let X := ieee_wide in let cfg := utt_config O (tenth 1) rc9 in
  features_fit O rc9 1 samples /\ am_fits rc9 0 0 1 1 /\ lm_implements (rc_lm rc9) None (fun _ : unit => True) /\
  run_fits O X cfg None (fun _ => True) rows states9 /\ (forall fuel, run_safe O X cfg fuel tt rows) /\
  lively cfg states9 /\ finite_costs O X cfg None rows /\ brief O X cfg None rows /\ ends cfg states9 /\ named rc9 states9 /\
  rows = [row9; row9].
Proof. exact case9. Qed.

(** With a result. *)
Example session_total_case_result : forall lib, exists fuel0, forall fuel, (fuel0 <= fuel)%nat -> forall err,
  exists u, utt_init (ieee lib) ieee_wide (tenth 1) fuel err rc9 (mk_format 1 16000 16) = Ok (Some u, err) /\
  forall ps, Forall piece ps -> concat ps = audio9 ->
  exists ns ll, session (ieee lib) ieee_wide (tenth 1) fuel err (Some u) ps = Ok (ns, text9, ll) /\ total ns = 560.
Proof. exact result9. Qed.
