(** Model of src/matrix.cc, [MatMat_U8U8F32], and of the function of gemmlowp
    that it calls. *)
From Coq Require Import ZArith List Bool.
From Verif.Base Require Import Prelude.
From Verif.Model Require Import Arith Vector Matrix Quantize.
Import ListNotations.
Open Scope Z_scope.

(** src/gemmlowp/public/map.h:30-76, [MatrixMap] in row-major order: an element
    of the matrix that begins at [off] and has rows [ld] apart. *)
Definition mapped (b : list Z) (off ld i j : Z) : res Z :=
  p <- int (i * ld) ;; getZ b (off + p + j).

(** src/gemmlowp/internal/unpack.h:90-127, [UnpackResultBlock], on what
    src/gemmlowp/internal/pack.h and compute.h sum up: row [i] times column [j]
    with the offsets added afterwards. The blocking of the loops, which changes
    neither the summands nor the result, is left out; sums of 32 bits that
    overflow are undefined, although vector instructions wrap. *)
Definition gemm_entry (lhs rhs : Z -> Z -> res Z) (depth lhs_offset rhs_offset i j : Z) : res Z :=
  '(ab, sa, sb) <- for_up 0 depth (fun '(ab, sa, sb) l =>
      x <- lhs i l ;; y <- rhs l j ;;
      ab <- int (ab + x * y) ;; sa <- int (sa + x) ;; sb <- int (sb + y) ;;
      Ok (ab, sa, sb)) (0, 0, 0) ;;
  t <- int (sa * rhs_offset) ;;
  acc <- int (ab + t) ;;
  r <- int (rhs_offset * depth) ;;
  s <- int (sb + r) ;;
  t <- int (s * lhs_offset) ;;
  int (acc + t).

(** src/gemmlowp/internal/dispatch_gemm_shape.h:171-203, [DispatchGemmShape]: a
    product with fewer rows than columns is computed as the product of the
    transposed matrices. *)
Definition dispatch (lhs rhs : Z -> Z -> res Z) (m n k lhs_offset rhs_offset i j : Z) : res Z :=
  if m <? n then gemm_entry (fun j l => rhs l j) (fun l i => lhs i l) k rhs_offset lhs_offset j i
  else gemm_entry lhs rhs k lhs_offset rhs_offset i j.

Section Gemm.
Context {F : Type}.
Variable O : fops F.
Variable junk : nat -> Z.      (* what freshly allocated memory contains *)

(** src/gemmlowp/eight_bit_int_gemm/eight_bit_int_gemm.cc:143-172,
    [Scratch::AssureSize]. The buffer is the list of its 32-bit integers; its
    size is always a multiple of four bytes. *)
Definition assure_size (scratch : list Z) (required : Z) : res (list Z) :=
  if required <=? 4 * lenZ scratch then Ok scratch
  else _ <- int (required + 32) ;; Ok (map junk (seq 0 (Z.to_nat (required / 4)))).

(** eight_bit_int_gemm.cc:338-402, [EightBitIntGemm] with results of type
    [float] and all matrices in row-major order, without the fast path for ARM.
    The size of the buffer is computed in [size_t] and converted to [int32_t]. *)
Definition eight_bit_gemm (scratch : list Z) (m n k : Z) (a : list Z) (a_off a_offset lda : Z)
    (b : list Z) (b_off b_offset ldb : Z) (c : list F) (c_off : Z) (c_offset : F) (ldc : Z)
  : res (list Z * list F) :=
  cells <- int (m * ldc) ;;
  temp <- assure_size scratch (wrap32 (cells * 4)) ;;
  temp <- for_up 0 m (fun t i => for_up 0 n (fun t j =>
            x <- dispatch (mapped a a_off lda) (mapped b b_off ldb) m n k a_offset b_offset i j ;;
            p <- int (i * ldc) ;;
            setZ t (p + j) x) t) temp ;;
  c <- for_up 0 m (fun c i =>
         p <- int (i * ldc) ;;
         for_up 0 n (fun c j =>
           x <- getZ temp (p + j) ;;
           setZ c (c_off + p + j) (f_mul O (f_int O x) c_offset)) c) c ;;
  Ok (temp, c).

(** src/matrix.cc:389-421, [MatMat_U8U8F32]. The rows are taken to be as far
    apart as they are long, whatever the strides. [scratch] is the buffer that
    earlier products left. *)
Definition mat_mat_u8 (scratch : list Z) (a : list Z) (va : view) (pa : params F)
    (b : list Z) (vb : view) (pb : params F) (c : list F) (vc : view) : res (list Z * list F) :=
  _ <- check ((v_cols va =? v_rows vb) && (v_rows va =? v_rows vc) && (v_cols vb =? v_cols vc)) Assert ;;
  na <- int (v_cols va * v_rows va) ;;
  _ <- check (1 <? na) Assert ;;
  nb <- int (v_cols vb * v_rows vb) ;;
  _ <- check (1 <? nb) Assert ;;
  offset_a <- int (- p_zero pa) ;;
  offset_b <- int (- p_zero pb) ;;
  eight_bit_gemm scratch (v_rows va) (v_cols vb) (v_cols va)
    a (v_off va) offset_a (v_cols va) b (v_off vb) offset_b (v_cols vb)
    c (v_off vc) (f_mul O (p_scale pa) (p_scale pb)) (v_cols vc).
End Gemm.
