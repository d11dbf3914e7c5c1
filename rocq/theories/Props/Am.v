(** Properties of the acoustic model and its network (C26 to C28), for any
    interpretation of the floating-point operations. *)
From Coq Require Import ZArith List.
From Verif.Base Require Import Prelude.
From Verif.Model Require Import Arith Vector Nnet Am.
From Verif.Spec Require Import AudioSpec AmSpec NnetSpec.
From Verif.Proof Require Am Nnet AmCases ZOps.
Import ListNotations.
Open Scope Z_scope.

(** C26: one row per frame, whatever the chunk size. The windows are those of
    the padded frames; the network may fail on none of them. *)
Theorem acoustic_rows : forall F (O : fops F) (a : am F) L R c d,
  am_left a = Z.of_nat L -> am_right a = Z.of_nat R -> am_chunk a = Z.of_nat c -> (1 <= c)%nat ->
  Z.of_nat L + 2 * Z.of_nat R + Z.of_nat c <= 2147483647 -> 0 < d ->
  local (am_nnet a) L R d ->
  forall frames, frames <> [] -> uniform d frames ->
  (forall w, In w (windows (S (L + R)) 1 (padded L R frames)) ->
     exists r, am_nnet a w = Ok [r] /\ length r = length (am_prior a)) ->
  exists outs i rest i',
    am_run O a inst_init frames = Ok (outs, i) /\ am_end O a i = Ok (rest, i') /\
    length (concat outs ++ rest) = length frames /\
    Forall2 (fun w row => exists r, am_nnet a w = Ok [r] /\
        subtracted (fun x y => f_add O x (f_mul O (f_minus_one O) y)) r (am_prior a) row)
      (windows (S (L + R)) 1 (padded L R frames)) (concat outs ++ rest).
Proof. exact @Proof.Am.stream_ok. Qed.
Print Assumptions acoustic_rows.

(** C27: networks as the converter writes them are local. *)
Theorem converted_network_local : forall F (O : fops F) (bs : list (block F)) d,
  Forall well_formed bs -> 0 < d ->
  local (nnet_propagate O (flat_map block_layers bs)) (left_context bs) (right_context bs) d.
Proof. exact @Proof.Nnet.stack_local. Qed.
Print Assumptions converted_network_local.

(** C26 for converted networks. *)
Theorem acoustic_rows_converted : forall F (O : fops F) (bs : list (block F)) c prior d frames,
  Forall well_formed bs -> 0 < d -> 1 <= c ->
  Z.of_nat (left_context bs) + 2 * Z.of_nat (right_context bs) + c <= 2147483647 ->
  frames <> [] -> uniform d frames ->
  let L := left_context bs in
  let R := right_context bs in
  let net := nnet_propagate O (flat_map block_layers bs) in
  let a := mk_am (Z.of_nat L) (Z.of_nat R) c prior net in
  (forall w, In w (windows (S (L + R)) 1 (padded L R frames)) ->
     exists r, net w = Ok [r] /\ length r = length prior) ->
  exists outs i rest i',
    am_run O a inst_init frames = Ok (outs, i) /\ am_end O a i = Ok (rest, i') /\
    length (concat outs ++ rest) = length frames /\
    Forall2 (fun w row => exists r, net w = Ok [r] /\
        subtracted (fun x y => f_add O x (f_mul O (f_minus_one O) y)) r prior row)
      (windows (S (L + R)) 1 (padded L R frames)) (concat outs ++ rest).
Proof. exact Proof.AmCases.converted_stream. Qed.
Print Assumptions acoustic_rows_converted.

(** A network with contexts 1 and 3, five frames, chunk sizes 2 and 9. *)
Example contexts_case :
  left_context Proof.AmCases.znet = 1%nat /\ right_context Proof.AmCases.znet = 3%nat /\
  Forall well_formed Proof.AmCases.znet /\ uniform 2 Proof.AmCases.zframes.
Proof. exact Proof.AmCases.contexts_case. Qed.

Example am_case :
  (exists i i', am_run Proof.ZOps.zops (Proof.AmCases.zam 2) inst_init Proof.AmCases.zframes
       = Ok ([[]; []; []; []; [[68; 46]; [56; 136]]], i) /\
     am_end Proof.ZOps.zops (Proof.AmCases.zam 2) i = Ok ([[146; 124]; [134; 160]; [170; 182]], i')) /\
  (exists i i', am_run Proof.ZOps.zops (Proof.AmCases.zam 9) inst_init Proof.AmCases.zframes
       = Ok ([[]; []; []; []; []], i) /\
     am_end Proof.ZOps.zops (Proof.AmCases.zam 9) i
       = Ok ([[68; 46]; [56; 136]; [146; 124]; [134; 160]; [170; 182]], i')).
Proof. exact Proof.AmCases.am_case. Qed.

(** C28 is false: closing again emits rows again. *)
Theorem close_twice_refuted : exists (a : am Z) i1 i2 i3 m,
  am_process Proof.ZOps.zops a inst_init [7] = Ok ([], i1) /\
  am_end Proof.ZOps.zops a i1 = Ok ([[7]], i2) /\ am_end Proof.ZOps.zops a i2 = Ok (m, i3) /\ m <> [].
Proof. exact Proof.AmCases.close_twice. Qed.
Print Assumptions close_twice_refuted.
