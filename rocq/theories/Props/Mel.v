(** Construction of the feature extractor (C69) and the features as formulas (C70). *)
From Coq Require Import ZArith Reals List.
From Verif.Base Require Import Prelude.
From Verif.Model Require Import Arith Vector Fbank Srfft FbankInit Exact.
From Verif.Spec Require Import AudioSpec FbankSpec MelSpec.
From Verif.Proof Require FbankInit Mel.
Import ListNotations.
Open Scope Z_scope.

(** * C69 *)

Theorem extractor_construction : forall F (O : fops F) (T : trig_ops F) (I : init_ops F) junk junk_int,
  fbank_new O T I junk junk_int = Fault Assert \/
  exists fb, fbank_new O T I junk junk_int = Ok fb /\ tables_fit fb /\ length (fb_bins fb) = 40%nat /\
    Forall (fun b => (2 <= length (snd b))%nat) (fb_bins fb).
Proof. exact Proof.FbankInit.fbank_new_fits. Qed.
Print Assumptions extractor_construction.

Theorem constructed_extractor_total_partial :
  forall F (O : fops F) (T : trig_ops F) (I : init_ops F) junk junk_int fb (ps : list (list F)),
  fbank_new O T I junk junk_int = Ok fb ->
  (forall x, f_nonneg O (if f_lt O x (f_eps O) then f_eps O else x) = true) ->
  Forall (fun p => p <> [] /\ lenZ p < 536870000) ps ->
  exists outs b, fbank_run O fb [] ps = Ok (outs, b) /\
    length (concat outs) = num_windows 400 160 (length (concat ps)) /\
    Forall (fun r => length r = 40%nat) (concat outs).
Proof. exact Proof.FbankInit.new_stream_total. Qed.
Print Assumptions constructed_extractor_total_partial.

(** * C70 *)

(** Restricted to pieces below 536870000 samples, beyond which the buffer size overflows. *)
Theorem features_are_log_mel_partial : forall junk junk_int,
  exists fb, fbank_new rops rtrig rinit junk junk_int = Ok fb /\
  forall ps, Forall (fun p => p <> [] /\ lenZ p < 536870000) ps ->
  exists outs b, fbank_run rops fb [] ps = Ok (outs, b) /\
    concat outs = map (fun w => map (log_mel w) (seq 0 40)) (windows 400 160 (concat ps)).
Proof. exact Proof.Mel.log_mel_features. Qed.
Print Assumptions features_are_log_mel_partial.

(** Two frames of silence with an offset give the floor. *)
Example silence_case : forall junk junk_int, exists fb, fbank_new rops rtrig rinit junk junk_int = Ok fb /\
  exists outs b, fbank_run rops fb [] [repeat 7%R 100; repeat 7%R 470] = Ok (outs, b) /\
    concat outs = repeat (repeat (ln (/ 2 ^ 23)) 40) 2.
Proof. exact Proof.Mel.silent_run. Qed.
Print Assumptions silence_case.

(** No filter is empty: each has two neighbouring terms with weights above 0 and at most 1. *)
Theorem mel_filters_not_empty : forall j, (j < 40)%nat -> exists k, (k + 1 < 256)%nat /\
  (0 < mel_weight j k <= 1)%R /\ (0 < mel_weight j (k + 1) <= 1)%R.
Proof. exact Proof.Mel.weights_pos. Qed.
Print Assumptions mel_filters_not_empty.
