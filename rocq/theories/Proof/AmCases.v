(** The acoustic model with converted networks; concrete cases. *)
From Coq Require Import ZArith List Bool Lia.
From Verif.Base Require Import Prelude Lemmas.
From Verif.Model Require Import Arith Vector Nnet Am.
From Verif.Spec Require Import AudioSpec AmSpec NnetSpec.
From Verif.Proof Require Import Loop Windows Am Nnet ZOps.
Import ListNotations.
Open Scope Z_scope.

Lemma converted_stream : forall F (O : fops F) (bs : list (block F)) c prior d frames,
  Forall well_formed bs -> 0 < d -> 1 <= c ->
  Z.of_nat (left_context bs) + 2 * Z.of_nat (right_context bs) + c <= 2147483647 ->
  frames <> [] -> uniform d frames ->
  let L := left_context bs in
  let R := right_context bs in
  let net := nnet_propagate O (flat_map block_layers bs) in
  let a := mk_am (Z.of_nat L) (Z.of_nat R) c prior net in
  (forall w, In w (windows (S (L + R)) 1 (padded L R frames)) ->
     exists r, net w = Ok [r] /\ length r = length prior) ->
  exists outs i rest i',
    am_run O a inst_init frames = Ok (outs, i) /\ am_end O a i = Ok (rest, i') /\
    length (concat outs ++ rest) = length frames /\
    Forall2 (fun w row => exists r, net w = Ok [r] /\
        subtracted (fun x y => f_add O x (f_mul O (f_minus_one O) y)) r prior row)
      (windows (S (L + R)) 1 (padded L R frames)) (concat outs ++ rest).
Proof.
  intros F O bs c prior d frames WF D C M N U L R net a W.
  apply (stream_ok O a L R (Z.to_nat c) d); auto; try (unfold a, L, R; cbn [am_chunk]; lia).
  apply stack_local; assumption.
Qed.

(** Frames of two elements; two context blocks and a linear layer. *)
Definition znet : list (block Z) :=
  [Context [-1; 0; 2]; Single ReLU; Single (Linear [[1]; [2]; [3]; [4]; [5]; [6]] [1]); Context [0; 1]].

Definition zam (c : Z) : am Z := mk_am 1 3 c [10; 20] (nnet_propagate zops (flat_map block_layers znet)).

Definition zframes : list (list Z) := [[1; 2]; [3; 4]; [5; 6]; [7; -8]; [9; 10]].

Lemma contexts_case : left_context znet = 1%nat /\ right_context znet = 3%nat /\ Forall well_formed znet /\
  uniform 2 zframes.
Proof. repeat split; repeat constructor; discriminate. Qed.

Lemma am_case :
  (exists i i', am_run zops (zam 2) inst_init zframes = Ok ([[]; []; []; []; [[68; 46]; [56; 136]]], i) /\
     am_end zops (zam 2) i = Ok ([[146; 124]; [134; 160]; [170; 182]], i')) /\
  (exists i i', am_run zops (zam 9) inst_init zframes = Ok ([[]; []; []; []; []], i) /\
     am_end zops (zam 9) i = Ok ([[68; 46]; [56; 136]; [146; 124]; [134; 160]; [170; 182]], i')).
Proof. split; do 2 eexists; split; reflexivity. Qed.

Lemma close_twice : exists (a : am Z) i1 i2 i3 m,
  am_process zops a inst_init [7] = Ok ([], i1) /\
  am_end zops a i1 = Ok ([[7]], i2) /\ am_end zops a i2 = Ok (m, i3) /\ m <> [].
Proof.
  exists (mk_am 0 0 2 [0] (fun m => Ok m)). do 4 eexists.
  split; [reflexivity|]. split; [reflexivity|]. split; [reflexivity|]. discriminate.
Qed.
