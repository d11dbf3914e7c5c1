(** Matrices whose element numbers leave the range of [int]; concrete cases. *)
From Coq Require Import ZArith List Bool Lia.
From Verif.Base Require Import Prelude Lemmas.
From Verif.Model Require Import Vector Matrix.
From Verif.Spec Require Import MatrixSpec.
From Verif.Proof Require Import Loop Matrix MatrixResize.
Import ListNotations.
Open Scope Z_scope.

Lemma places : forall v n, inside v n ->
  (forall r c, index v r c -> exists i, place v r c = Ok i /\ 0 <= i < n) /\
  (forall r c r' c' i, index v r c -> index v r' c' -> place v r c = Ok i -> place v r' c' = Ok i ->
     r = r' /\ c = c').
Proof.
  intros v n H. split.
  - intros r c I. exists (cell v r c). split; [now apply (place_ok v n)|now apply cell_range].
  - intros r c r' c' i I I' E E'. rewrite (place_ok v n) in E, E' by assumption.
    destruct H as (_ & _ & S & _). unfold index in *. apply (cell_inj v); [lia|lia|congruence].
Qed.

Lemma range_elements : forall A (b : list A) v ro r co c, inside v (lenZ b) ->
  0 <= ro -> 0 <= co -> 0 < r -> 0 < c -> ro + r <= v_rows v -> co + c <= v_cols v ->
  exists w, sub_matrix v ro r co c = Ok w /\ inside w (lenZ b) /\ v_rows w = r /\ v_cols w = c /\
    forall i j, index w i j -> mget b w i j = mget b v (ro + i) (co + j).
Proof.
  intros A b v ro r co c H P P' R Cc L L'.
  destruct (sub_matrix_inside v (lenZ b) ro r co c H P P' R Cc L L') as [w (E & I & Rw & Cw & Lw)].
  exists w. split; [exact E|]. split; [exact I|]. split; [exact Rw|]. split; [exact Cw|].
  intros i j J. rewrite (mget_cell w b), (mget_cell v b) by (auto; unfold index in *; lia). now rewrite Lw.
Qed.

Lemma range_too_far : forall v ro r co c, 0 < r -> 0 < c ->
  v_rows v < ro + r \/ v_cols v < co + c -> sub_matrix v ro r co c = Fault Assert.
Proof.
  intros v ro r co c R Cc H. unfold sub_matrix. destruct (Z.eqb_spec r 0); [lia|]. destruct (Z.eqb_spec c 0); [lia|].
  cbn [orb].
  destruct (Z.leb_spec r (v_rows v - ro)), (Z.leb_spec c (v_cols v - co)); try lia;
    rewrite ?andb_false_r, ?andb_false_l; reflexivity.
Qed.

Lemma padded_overflow : forall A (junk : nat -> A),
  exists m, mat_init 4 junk 1073741824 1 DefaultStride = Ok m /\
    exists r c, index (m_view m) r c /\ element m r c = Fault Undef.
Proof.
  intros A junk. unfold mat_init. rewrite int_ok by lia. cbn [bind].
  change (1073741824 * 1 =? 0) with false. cbn iota. change ((0 <? 1073741824) && (0 <? 1)) with true.
  cbn [check bind]. change (1 + (16 / 4 - 1 mod (16 / 4)) mod (16 / 4)) with 4.
  rewrite int_ok by lia. cbn [bind]. eexists. split; [reflexivity|].
  exists 536870912, 0. split; [unfold index; cbn; lia|].
  unfold element, mget, place. cbn [m_block m_view v_rows v_cols v_stride v_off].
  change ((536870912 <? 1073741824) && (0 <? 1)) with true. cbn [check bind]. unfold int.
  change (in_int32 (536870912 * 4)) with false. reflexivity.
Qed.

(** Cases: [view3] are the numbers 1 to 9 as 3 rows of 3, in lines of 4, behind
    one cell. *)
Definition view3 : view := mk_view 1 3 3 4.
Definition block3 : list Z := [0; 1; 2; 3; 0; 4; 5; 6; 0; 7; 8; 9].

Lemma inside3 : inside view3 (lenZ block3).
Proof. unfold inside, int_max, lenZ. cbn. lia. Qed.

Lemma transpose3 : transpose block3 view3 = Ok [0; 1; 4; 7; 0; 2; 5; 8; 0; 3; 6; 9].
Proof. reflexivity. Qed.

Lemma copy3 :
  inside (mk_view 0 3 2 2) (lenZ (repeat 0 6)) /\ sub_matrix view3 1 2 0 3 = Ok (mk_view 5 2 3 4) /\
  inside (mk_view 5 2 3 4) (lenZ block3) /\
  copy_from_mat (repeat 0 6) (mk_view 0 3 2 2) block3 (mk_view 5 2 3 4) Trans = Ok [4; 7; 5; 8; 6; 9].
Proof. unfold inside, int_max, lenZ. cbn. repeat split; lia || reflexivity. Qed.

Lemma plain3 :
  inside (mk_view 1 2 3 3) (lenZ (repeat 0 8)) /\
  copy_from_mat (repeat 0 8) (mk_view 1 2 3 3) block3 (mk_view 5 2 3 4) NoTrans = Ok [0; 4; 5; 6; 7; 8; 9; 0].
Proof. unfold inside, int_max, lenZ. cbn. repeat split; lia || reflexivity. Qed.

Lemma init3 :
  element_size 4 /\ fits 4 2 3 DefaultStride /\
  mat_init 4 (fun n => Z.of_nat n) 2 3 DefaultStride =
    Ok (mk_mat (Some [0; 1; 2; 3; 4; 5; 6; 7]) (mk_view 0 2 3 4)).
Proof. unfold element_size, fits, padded, int_max. cbn. repeat split; lia || reflexivity. Qed.

Lemma resize3 :
  proper (mk_mat (Some block3) view3) /\ fits 4 2 5 StrideEqualNumCols /\
  mat_resize 0 4 (fun _ => 77) (mk_mat (Some block3) view3) 2 5 CopyData StrideEqualNumCols =
    Ok (mk_mat (Some [1; 2; 3; 0; 0; 4; 5; 6; 0; 0; 77; 77; 77; 77; 77; 77]) (mk_view 0 2 5 5)).
Proof.
  split; [exists block3; split; [reflexivity|exact inside3]|].
  unfold fits, padded, int_max. cbn. repeat split; lia || reflexivity.
Qed.

Lemma product3 :
  simple_mat_mat 0 Z.add Z.mul block3 (mk_view 1 2 3 4) block3 (mk_view 1 3 2 4) (repeat 55 5) (mk_view 1 2 2 2)
    = Ok [55; 30; 36; 66; 81].
Proof. reflexivity. Qed.
