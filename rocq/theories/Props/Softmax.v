(** Softmax and normalisation layers over the real numbers (C29). *)
From Coq Require Import ZArith Reals List.
From Verif.Base Require Import Prelude.
From Verif.Model Require Import Arith Nnet Exact.
From Verif.Spec Require Import RealSpec.
From Verif.Proof Require Softmax.
Import ListNotations.
Open Scope R_scope.

Theorem softmax_distribution : forall m old,
  exists y, propagate rops Softmax m old = Ok y /\ Forall2 boltzmann m y.
Proof. exact Proof.Softmax.softmax_rows. Qed.
Print Assumptions softmax_distribution.

Example softmax_distribution_case : forall old,
  propagate rops Softmax [[ln 3; 0]; [0; 0]] old = Ok [[3 / 4; 1 / 4]; [1 / 2; 1 / 2]].
Proof. exact Proof.Softmax.softmax_case. Qed.
Print Assumptions softmax_distribution_case.

Theorem log_softmax_is_log : forall m old,
  exists p l, propagate rops Softmax m old = Ok p /\ propagate rops LogSoftmax m old = Ok l /\
    l = map (map ln) p.
Proof. exact Proof.Softmax.log_softmax_rows. Qed.
Print Assumptions log_softmax_is_log.

Theorem softmax_shift_invariant : forall m m' old old', Forall2 shifted m m' ->
  propagate rops Softmax m' old' = propagate rops Softmax m old /\
  propagate rops LogSoftmax m' old' = propagate rops LogSoftmax m old.
Proof. exact Proof.Softmax.rows_shift. Qed.
Print Assumptions softmax_shift_invariant.

Example softmax_shift_invariant_case :
  Forall2 shifted [[ln 3; 0]; [0; 0]] [[7 + ln 3; 7 + 0]; [- 1 + 0; - 1 + 0]].
Proof. exact Proof.Softmax.shift_case. Qed.
Print Assumptions softmax_shift_invariant_case.

Theorem normalize_mean_square : forall m old,
  exists y, propagate rops Normalize m old = Ok y /\
    Forall2 (fun x y => (exists v, In v x /\ v <> 0) -> unit_power x y) m y.
Proof. exact Proof.Softmax.normalize_rows. Qed.
Print Assumptions normalize_mean_square.

Example normalize_mean_square_case :
  (exists v, In v [3; 4] /\ v <> 0) /\ unit_power [3; 4] [3 * sqrt 2 / 5; 4 * sqrt 2 / 5].
Proof. exact Proof.Softmax.normalize_case. Qed.
Print Assumptions normalize_mean_square_case.
