(** Files that make loading crash. *)
From Coq Require Import ZArith Reals String List Bool Lia.
From Verif.Base Require Import Prelude Lemmas.
From Verif.Model Require Import Util File Binary Arith Vector Nnet Formats Fst Decoder Stt FbankInit Loading Exact.
From Verif.Spec Require Import AudioSpec AmSpec FormatSpec TextSpec FstSpec LoadingSpec LoadFaultSpec.
From Verif.Proof Require Import Binary Formats LoadFault LoadFaultInit.
From Verif.Proof Require LoadingCases.
Import ListNotations.
Open Scope Z_scope.

Lemma matrix_fault content x : byte_list content -> mat_read (open content) = Fault x ->
  odd_section content /\ (x = Assert \/ x = Undef).
Proof.
  intros By H. destruct (tr_matrix (open content) By) as (F & _). destruct (F x H) as (b & t & Q & [(N & ->)|(N & X)]).
  - split; [|now left]. exists b, t. split; [exact Q|now left].
  - split; [|exact X]. exists b, t. split; [exact Q|now right].
Qed.

Lemma bytes_ok l : forallb (fun c => (0 <=? c) && (c <? 256)) l = true -> byte_list l.
Proof.
  intros H. rewrite forallb_forall in H. apply Forall_forall. intros c J. specialize (H c J). apply andb_true_iff in H.
  destruct H as (A & B). apply Z.leb_le in A. apply Z.ltb_lt in B. cbn beta. lia.
Qed.

(** A second matrix whose rows are fewer than none, behind a layer that is fine. *)
Definition bad_network : str :=
  lit "NN02" ++ word 0 ++ word 0 ++ word 2 ++ lit "LAY0" ++ word 1 ++ lit "LAY0" ++ word 0 ++ lit "MAT0" ++ word 8 ++ word (-1) ++ word 2.

Lemma bad_network_case : byte_list bad_network /\ nnet_read (open bad_network) = Fault Assert.
Proof. split; [apply bytes_ok; vm_compute; reflexivity|vm_compute; reflexivity]. Qed.

Lemma files9_bytes p c : LoadingCases.files9 (LoadingCases.changed "left_context=one") [7; 0] p = Some c -> byte_list c.
Proof.
  unfold LoadingCases.files9. cbn [List.find Datatypes.fst]. 
  repeat match goal with |- context [str_eqb p ?x] => destruct (str_eqb p x); [intros H; injection H as <-; apply bytes_ok; vm_compute; reflexivity|] end.
  discriminate.
Qed.

Lemma faults9 junk junk_int unknown why lm_fuel :
  (forall p c, LoadingCases.files9 (LoadingCases.changed "left_context=one") [7; 0] p = Some c -> byte_list c) /\
  LoadingCases.init9 junk junk_int unknown why lm_fuel (LoadingCases.changed "left_context=one") [7; 0] = Fault Throw.
Proof. split; [exact files9_bytes|apply LoadingCases.crashes9]. Qed.
