(** Properties of the model file readers (C30-C32, C63). A [file] holds the
    bytes still to be read; elements are 32-bit words. *)
From Coq Require Import ZArith List.
From Verif.Base Require Import Prelude.
From Verif.Model Require Import File Nnet Formats.
From Verif.Spec Require Import AudioSpec FormatSpec.
From Verif.Proof Require Formats.
Import ListNotations.
Open Scope Z_scope.

Theorem vector_round_trip : forall v old rest e, storable v ->
  vec_read old (mk_file (vector_file v ++ rest) e) = Ok (true, map Some v, mk_file rest e).
Proof. exact Proof.Formats.vec_read_file. Qed.
Print Assumptions vector_round_trip.

(** Nothing else is accepted. *)
Theorem vector_only_own_format : forall old f v' f', byte_list (f_rest f) ->
  vec_read old f = Ok (true, v', f') ->
  exists v, storable v /\ v' = map Some v /\ f_rest f = vector_file v ++ f_rest f' /\ f_eof f' = f_eof f.
Proof. exact Proof.Formats.vec_read_only. Qed.
Print Assumptions vector_only_own_format.

Example vector_case :
  vec_read [] (mk_file (vector_file [7; -2; 1065353216] ++ [9]) false)
  = Ok (true, [Some 7; Some (-2); Some 1065353216], mk_file [9] false).
Proof. exact (eq_refl _). Qed.

Theorem matrix_round_trip : forall m rest e, storable_matrix m ->
  mat_read (mk_file (matrix_file m ++ rest) e) = Ok (Some (map (map Some) m), mk_file rest e).
Proof. exact (fun m rest e S => Proof.Formats.reads_matrix m S rest e). Qed.
Print Assumptions matrix_round_trip.

(** Full statement: no truncated matrix file is accepted. Missing: cuts behind
    the header of the first row, see below. *)
Theorem matrix_truncated_partial : forall m k, storable_matrix m -> (k < 28)%nat ->
  exists f, mat_read (open (firstn k (matrix_file m))) = Ok (None, f).
Proof. exact Proof.Formats.matrix_cut_rejected. Qed.
Print Assumptions matrix_truncated_partial.

(** Every other cut is accepted: [Matrix::Read] ignores the status of its rows. *)
Theorem matrix_truncated_refuted : forall m k, storable_matrix m ->
  (28 <= k < length (matrix_file m))%nat ->
  exists m' f, mat_read (open (firstn k (matrix_file m))) = Ok (Some m', f).
Proof. exact Proof.Formats.matrix_cut_accepted. Qed.
Print Assumptions matrix_truncated_refuted.

(** Rows (1 2) and (3 4), cut within the header of the second row: the first
    row is used twice. *)
Example matrix_truncated_case : storable_matrix Proof.Formats.two_rows /\
  exists f, mat_read (open (firstn 40 (matrix_file Proof.Formats.two_rows)))
            = Ok (Some [[Some 1; Some 2]; [Some 1; Some 2]], f).
Proof. exact (conj Proof.Formats.two_rows_storable Proof.Formats.two_rows_cut). Qed.

Theorem network_round_trip : forall l r ls rest e, fits 4 l -> fits 4 r -> Forall storable_layer ls ->
  Z.of_nat (length ls) <= 2147483647 ->
  nnet_read (mk_file (network_file l r ls ++ rest) e) = Ok (Some (l, r, map known_layer ls), mk_file rest e).
Proof. exact Proof.Formats.nnet_read_file. Qed.
Print Assumptions network_round_trip.

Example network_case :
  nnet_read (open (network_file 2 1 [Splice [-1; 0; 1]; Narrow 1 1; Linear [[1; 2]; [3; 4]] [5; 6]; LogSoftmax]))
  = Ok (Some (2, 1, [Splice [-1; 0; 1]; Narrow 1 1;
                     Linear [[Some 1; Some 2]; [Some 3; Some 4]] [Some 5; Some 6]; LogSoftmax]), mk_file [] false).
Proof. exact (eq_refl _). Qed.

(** Full statement: no byte sequence makes a reader fail otherwise than with
    an error status. *)
Theorem vector_damage_partial : forall old f x, byte_list (f_rest f) -> vec_read old f = Fault x ->
  x = Assert /\ exists size dim rest,
    f_rest f = [86; 69; 67; 48] ++ word size ++ word dim ++ rest /\ fits 4 dim /\ dim < 0.
Proof. exact Proof.Formats.vec_read_fault. Qed.
Print Assumptions vector_damage_partial.

Theorem vector_damage_refuted :
  vec_read [] (open ([86; 69; 67; 48] ++ word 0 ++ word (-1))) = Fault Assert.
Proof. exact Proof.Formats.vec_read_crash. Qed.
Print Assumptions vector_damage_refuted.

Theorem matrix_damage_refuted :
  mat_read (open ([77; 65; 84; 48] ++ word 8 ++ word 1 ++ word 0)) = Fault Assert.
Proof. exact Proof.Formats.mat_read_crash. Qed.
Print Assumptions matrix_damage_refuted.
