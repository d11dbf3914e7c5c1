(** From audio to rows of log probabilities, and what a recognizer needs for a
    session never to fail. *)
From Coq Require Import ZArith List Bool.
From Verif.Base Require Import Prelude.
From Verif.Spec Require Import AudioSpec AmSpec FbankSpec DecoderSpec TotalSpec.
From Verif.Model Require Import Arith Fbank Am SymbolTable Fst Decoder Stt.
Import ListNotations.
Open Scope Z_scope.

Section Session.
Context {F D C : Type}.
Variable O : fops F.
Variable rc : recognizer F C.

(** The acoustic model works on rows of [d] features with [L] rows of context to
    the left and [R] to the right, [c] rows at a time: whatever the rows, the
    network gives one log probability per prior. *)
Record am_fits (L R c : nat) (d : Z) : Prop := {
  af_left : am_left (rc_am rc) = Z.of_nat L;
  af_right : am_right (rc_am rc) = Z.of_nat R;
  af_chunk : am_chunk (rc_am rc) = Z.of_nat c;
  af_some : (1 <= c)%nat;
  af_small : Z.of_nat L + 2 * Z.of_nat R + Z.of_nat c <= 2147483647;
  af_dim : 0 < d;
  af_local : local (am_nnet (rc_am rc)) L R d;
  af_net : forall w, uniform d w -> length w = S (L + R) ->
    exists r, am_nnet (rc_am rc) w = Ok [r] /\ length r = length (am_prior (rc_am rc))
}.

(** The feature extractor gives [d] features for every window of the samples. *)
Definition features_fit (d : Z) (samples : list F) : Prop :=
  forall w, In w (windows 400 160 samples) ->
    exists r b, fbank_process O (rc_fbank rc) [] w = Ok ([r], b) /\ lenZ r = d.

(** [rows] are the log probabilities for the samples: one row of features per
    window of 400 samples, one row of log probabilities per row of features with
    its context, the first and the last row of features repeated as context at
    the ends; the log of the prior is subtracted. *)
Definition rows_of (L R : nat) (samples : list F) (rows : list (list F)) : Prop :=
  exists feats,
    Forall2 (fun w r => exists b, fbank_process O (rc_fbank rc) [] w = Ok ([r], b)) (windows 400 160 samples) feats /\
    Forall2 (fun w row => exists r, am_nnet (rc_am rc) w = Ok [r] /\
        subtracted (fun x y => f_add O x (f_mul O (f_minus_one O) y)) r (am_prior (rc_am rc)) row)
      (windows (S (L + R)) 1 (padded L R feats)) rows.

(** The words of the arcs have a text. *)
Definition named (states : list state) : Prop :=
  forall s a, In s states -> arc_from (rc_graph rc) (Datatypes.fst s) a -> output_label a <> 0 ->
    exists name, sym_get (rc_symbols rc) (output_label a) = Ok name.

End Session.
