(** Sliding-window mean normalisation over the real numbers (C55). *)
From Coq Require Import ZArith Reals List.
From Verif.Base Require Import Prelude.
From Verif.Model Require Import Arith Cmvn Exact.
From Verif.Spec Require Import RealSpec.
From Verif.Proof Require Cmvn.
Import ListNotations.
Open Scope R_scope.

Theorem normalisation_subtracts_mean : forall raw global n,
  Forall (fun row => length row = 40%nat) raw -> length global = 41%nat -> 0 < nth 40 global 0 ->
  (n <= length raw)%nat ->
  exists outs c, get_frames rops rwide (cmvn_new global raw) (seqZ 0 n) = Ok (outs, c) /\ length outs = n /\
    forall i, (i < n)%nat -> length (nth i outs []) = 40%nat /\
      forall j, (j < 40)%nat -> nth j (nth i outs []) 0 = normalised raw global i j.
Proof. exact Proof.Cmvn.in_order. Qed.
Print Assumptions normalisation_subtracts_mean.

Example normalisation_subtracts_mean_case :
  let raw := repeat (repeat 1 40) 700 in let global := repeat 0 40 ++ [1000] in
  Forall (fun row => length row = 40%nat) raw /\ length global = 41%nat /\ 0 < nth 40 global 0 /\
  normalised raw global 99 0 = 2 / 3 /\ normalised raw global 650 7 = 0.
Proof. exact Proof.Cmvn.normalised_case. Qed.
Print Assumptions normalisation_subtracts_mean_case.

Theorem normalisation_in_order : forall F D (O : fops F) (W : wide_ops F D) c frame dim,
  frame <> (n_frame c + 1)%Z -> get_frame O W c frame dim = Fault Assert.
Proof. exact Proof.Cmvn.out_of_order. Qed.
Print Assumptions normalisation_in_order.
