(** Model of the constructors of layers from matrices and vectors in memory
    (src/nnet.cc), of [SubMatrix] over memory of the caller and of [Scale]
    (src/matrix.cc). *)
From Coq Require Import ZArith List Bool.
From Verif.Base Require Import Prelude.
From Verif.Model Require Import Vector Matrix.
Import ListNotations.
Open Scope Z_scope.

(** src/matrix.cc:223-236, the constructor of [SubMatrix] with a pointer; [None]
    is the null pointer, [Some] the place of the first element in the memory of
    the caller. Negative dimensions and the end of that memory are not asserted
    against. *)
Definition sub_matrix_at (data : option Z) (rows cols stride : Z) : res view :=
  match data with
  | None => n <- int (rows * cols) ;; _ <- check (n =? 0) Assert ;; Ok no_view
  | Some off => _ <- check (cols <=? stride) Assert ;; Ok (mk_view off rows cols stride)
  end.

Section Build.
Context {A : Type}.

(** src/matrix.cc:238-243, [MatrixBase::Scale], and src/vector.cc:193-198,
    [VectorBase::Scale] of each row. *)
Definition mat_scale (mul : A -> A -> A) (b : list A) (v : view) (alpha : A) : res (list A) :=
  for_up 0 (v_rows v) (fun b r =>
    i <- row_start v r ;;
    for_up 0 (v_cols v) (fun b j => x <- getZ b (i + j) ;; setZ b (i + j) (mul x alpha)) b) b.

Variable zero : A.             (* all bytes zero *)
Variable width : Z.            (* sizeof(float) *)
Variable junk : nat -> A.      (* what freshly allocated memory contains *)

(** src/vector.cc:131-164, [Resize] of a new vector (its zeros are overwritten
    by the copy), and src/vector.cc:73-79, [CopyFromVec]. *)
Definition copy_vec (x : list A) : res (list A) :=
  _ <- vec_init width (lenZ x) ;; vcopy (lenZ x) x.

(** src/nnet.cc:11-20, the constructor of [LinearLayer] from the matrix [v] in
    the block [b]: the members [W_] and [b_]. *)
Definition linear_new (b : list A) (v : view) (bias : list A) : res (mat A * list A) :=
  _ <- check (lenZ bias =? v_rows v) Assert ;;
  m <- mat_resize zero width junk (mk_mat None no_view) (v_cols v) (v_rows v) SetZero StrideEqualNumCols ;;
  m <- (match m_block m with
        | None => _ <- copy_from_mat [] (m_view m) b v Trans ;; Ok m
        | Some w => w <- copy_from_mat w (m_view m) b v Trans ;; Ok (mk_mat (Some w) (m_view m))
        end) ;;
  bias <- copy_vec bias ;;
  Ok (m, bias).

(** src/nnet.cc:97-103, the constructor of [BatchNormLayer]: the members
    [scale_] and [offset_]. Their dimensions are not compared. *)
Definition batch_norm_new (scale offset : list A) : res (list A * list A) :=
  scale <- copy_vec scale ;;
  offset <- copy_vec offset ;;
  Ok (scale, offset).

End Build.
