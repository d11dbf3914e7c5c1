(** Storage of matrices (C53), for any type of elements. *)
From Coq Require Import ZArith List.
From Verif.Base Require Import Prelude.
From Verif.Model Require Import Matrix.
From Verif.Spec Require Import MatrixSpec.
From Verif.Proof Require Matrix MatrixResize MatrixCases.
Import ListNotations.
Open Scope Z_scope.

Theorem matrix_places : forall v n, inside v n ->
  (forall r c, index v r c -> exists i, place v r c = Ok i /\ 0 <= i < n) /\
  (forall r c r' c' i, index v r c -> index v r' c' -> place v r c = Ok i -> place v r' c' = Ok i ->
     r = r' /\ c = c').
Proof. exact Proof.MatrixCases.places. Qed.
Print Assumptions matrix_places.

Theorem matrix_allocation_partial : forall A width (junk : nat -> A), element_size width ->
  forall rows cols s, fits width rows cols s ->
  exists m, mat_init width junk rows cols s = Ok m /\ proper m /\
    v_rows (m_view m) = rows /\ v_cols (m_view m) = cols /\
    match s with
    | DefaultStride => (v_stride (m_view m) * width) mod 16 = 0
    | StrideEqualNumCols => v_stride (m_view m) = cols
    end.
Proof. exact @Proof.MatrixResize.init_layout. Qed.
Print Assumptions matrix_allocation_partial.

Example matrix_allocation_case :
  element_size 4 /\ fits 4 2 3 DefaultStride /\
  mat_init 4 (fun n => Z.of_nat n) 2 3 DefaultStride =
    Ok (mk_mat (Some [0; 1; 2; 3; 4; 5; 6; 7]) (mk_view 0 2 3 4)).
Proof. exact Proof.MatrixCases.init3. Qed.
Print Assumptions matrix_allocation_case.

Theorem matrix_allocation_refuted : forall A width (junk : nat -> A) rows cols s,
  rows * cols > int_max -> mat_init width junk rows cols s = Fault Undef.
Proof. exact @Proof.MatrixResize.init_overflow. Qed.
Print Assumptions matrix_allocation_refuted.

Theorem matrix_padding_refuted : forall A (junk : nat -> A),
  exists m, mat_init 4 junk 1073741824 1 DefaultStride = Ok m /\
    exists r c, index (m_view m) r c /\ element m r c = Fault Undef.
Proof. exact Proof.MatrixCases.padded_overflow. Qed.
Print Assumptions matrix_padding_refuted.

Theorem matrix_write : forall A (b : list A) v r c x, inside v (lenZ b) -> index v r c ->
  exists b', mset b v r c x = Ok b' /\ length b' = length b /\ mget b' v r c = Ok x /\
    forall r' c', index v r' c' -> (r', c') <> (r, c) -> mget b' v r' c' = mget b v r' c'.
Proof. exact @Proof.Matrix.write_one. Qed.
Print Assumptions matrix_write.

Example matrix_write_case : inside Proof.MatrixCases.view3 (lenZ Proof.MatrixCases.block3).
Proof. exact Proof.MatrixCases.inside3. Qed.
Print Assumptions matrix_write_case.

Theorem matrix_copy : forall A (b : list A) v b' v', inside v (lenZ b) -> inside v' (lenZ b') ->
  v_rows v = v_rows v' -> v_cols v = v_cols v' ->
  exists b1, copy_from_mat b v b' v' NoTrans = Ok b1 /\ only v b b1 /\
    forall r c, index v r c -> mget b1 v r c = mget b' v' r c.
Proof. exact @Proof.Matrix.copy_plain. Qed.
Print Assumptions matrix_copy.

Example matrix_copy_case :
  inside (mk_view 1 2 3 3) (lenZ (repeat 0 8)) /\
  copy_from_mat (repeat 0 8) (mk_view 1 2 3 3) Proof.MatrixCases.block3 (mk_view 5 2 3 4) NoTrans
    = Ok [0; 4; 5; 6; 7; 8; 9; 0].
Proof. exact Proof.MatrixCases.plain3. Qed.
Print Assumptions matrix_copy_case.

Theorem matrix_copy_transposed : forall A (b : list A) v b' v', inside v (lenZ b) -> inside v' (lenZ b') ->
  v_rows v = v_cols v' -> v_cols v = v_rows v' ->
  exists b1, copy_from_mat b v b' v' Trans = Ok b1 /\ only v b b1 /\
    forall r c, index v r c -> mget b1 v r c = mget b' v' c r.
Proof. exact @Proof.Matrix.copy_trans. Qed.
Print Assumptions matrix_copy_transposed.

Example matrix_copy_transposed_case :
  inside (mk_view 0 3 2 2) (lenZ (repeat 0 6)) /\
  sub_matrix Proof.MatrixCases.view3 1 2 0 3 = Ok (mk_view 5 2 3 4) /\
  inside (mk_view 5 2 3 4) (lenZ Proof.MatrixCases.block3) /\
  copy_from_mat (repeat 0 6) (mk_view 0 3 2 2) Proof.MatrixCases.block3 (mk_view 5 2 3 4) Trans
    = Ok [4; 7; 5; 8; 6; 9].
Proof. exact Proof.MatrixCases.copy3. Qed.
Print Assumptions matrix_copy_transposed_case.

Theorem matrix_transpose : forall A (b : list A) v, inside v (lenZ b) -> v_rows v = v_cols v ->
  exists b1, transpose b v = Ok b1 /\ only v b b1 /\
    forall r c, index v r c -> mget b1 v r c = mget b v c r.
Proof. exact @Proof.Matrix.transpose_square. Qed.
Print Assumptions matrix_transpose.

Example matrix_transpose_case :
  transpose Proof.MatrixCases.block3 Proof.MatrixCases.view3 = Ok [0; 1; 4; 7; 0; 2; 5; 8; 0; 3; 6; 9].
Proof. exact Proof.MatrixCases.transpose3. Qed.
Print Assumptions matrix_transpose_case.

Theorem matrix_range : forall A (b : list A) v ro r co c, inside v (lenZ b) ->
  0 <= ro -> 0 <= co -> 0 < r -> 0 < c -> ro + r <= v_rows v -> co + c <= v_cols v ->
  exists w, sub_matrix v ro r co c = Ok w /\ inside w (lenZ b) /\ v_rows w = r /\ v_cols w = c /\
    forall i j, index w i j -> mget b w i j = mget b v (ro + i) (co + j).
Proof. exact Proof.MatrixCases.range_elements. Qed.
Print Assumptions matrix_range.

Theorem matrix_range_checked : forall v ro r co c, 0 < r -> 0 < c ->
  v_rows v < ro + r \/ v_cols v < co + c -> sub_matrix v ro r co c = Fault Assert.
Proof. exact Proof.MatrixCases.range_too_far. Qed.
Print Assumptions matrix_range_checked.

Theorem matrix_resize_copy : forall A (zero : A) width junk, element_size width ->
  forall m rows cols s, proper m -> fits width rows cols StrideEqualNumCols ->
  exists m', mat_resize zero width junk m rows cols CopyData s = Ok m' /\ proper m' /\
    v_rows (m_view m') = rows /\ v_cols (m_view m') = cols /\
    forall r c, index (m_view m') r c ->
      (index (m_view m) r c -> element m' r c = element m r c) /\
      (~ index (m_view m) r c -> element m' r c = Ok zero).
Proof. exact @Proof.MatrixResize.resize_copy. Qed.
Print Assumptions matrix_resize_copy.

Example matrix_resize_copy_case :
  proper (mk_mat (Some Proof.MatrixCases.block3) Proof.MatrixCases.view3) /\ fits 4 2 5 StrideEqualNumCols /\
  mat_resize 0 4 (fun _ => 77) (mk_mat (Some Proof.MatrixCases.block3) Proof.MatrixCases.view3) 2 5 CopyData
    StrideEqualNumCols =
    Ok (mk_mat (Some [1; 2; 3; 0; 0; 4; 5; 6; 0; 0; 77; 77; 77; 77; 77; 77]) (mk_view 0 2 5 5)).
Proof. exact Proof.MatrixCases.resize3. Qed.
Print Assumptions matrix_resize_copy_case.

Theorem matrix_resize_zero : forall A (zero : A) width junk, element_size width ->
  forall m rows cols s, (proper m \/ m_block m = None) -> fits width rows cols s ->
  exists m', mat_resize zero width junk m rows cols SetZero s = Ok m' /\ proper m' /\
    v_rows (m_view m') = rows /\ v_cols (m_view m') = cols /\
    forall r c, index (m_view m') r c -> element m' r c = Ok zero.
Proof. exact @Proof.MatrixResize.resize_zero. Qed.
Print Assumptions matrix_resize_zero.

Theorem matrix_product : forall A (zero : A) add mul a va b vb c vc (fa fb : Z -> Z -> A),
  inside va (lenZ a) -> inside vb (lenZ b) -> inside vc (lenZ c) ->
  v_cols vb = v_cols vc -> v_rows va = v_rows vc -> v_cols va = v_rows vb ->
  (forall r k, index va r k -> mget a va r k = Ok (fa r k)) ->
  (forall r k, index vb r k -> mget b vb r k = Ok (fb r k)) ->
  exists c1, simple_mat_mat zero add mul a va b vb c vc = Ok c1 /\ only vc c c1 /\
    forall i j, index vc i j ->
      mget c1 vc i j = Ok (sum_of add (fun k => mul (fa i k) (fb k j)) zero (Z.to_nat (v_cols va))).
Proof. exact @Proof.MatrixResize.product_ok. Qed.
Print Assumptions matrix_product.

Example matrix_product_case :
  simple_mat_mat 0 Z.add Z.mul Proof.MatrixCases.block3 (mk_view 1 2 3 4) Proof.MatrixCases.block3
    (mk_view 1 3 2 4) (repeat 55 5) (mk_view 1 2 2 2) = Ok [55; 30; 36; 66; 81].
Proof. exact Proof.MatrixCases.product3. Qed.
Print Assumptions matrix_product_case.
