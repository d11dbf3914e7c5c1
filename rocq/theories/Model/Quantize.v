(** Model of src/matrix.cc: quantisation of a matrix to 8 bits. *)
From Coq Require Import ZArith List Bool.
From Verif.Base Require Import Prelude.
From Verif.Model Require Import Arith Vector Cmvn Matrix.
Import ListNotations.
Open Scope Z_scope.

(** What quantisation uses beyond Model/Arith.v and Model/Cmvn.v. *)
Record round_ops (F D : Type) : Type := mk_round {
  q_max : F;                       (* std::numeric_limits<float>::max() *)
  q_min : F;                       (* std::numeric_limits<float>::min(), the least positive normal number *)
  q_round : D -> option Z;         (* round, as a whole number; [None] for infinities and NaN *)
  q_roundf : F -> option Z         (* roundf *)
}.
Arguments mk_round {F D}. Arguments q_max {F D}. Arguments q_min {F D}.
Arguments q_round {F D}. Arguments q_roundf {F D}.

(** src/matrix.h:230-234, [QuantizationParams]. *)
Record params (F : Type) : Type := mk_params { p_scale : F; p_zero : Z }.
Arguments mk_params {F}. Arguments p_scale {F}. Arguments p_zero {F}.

Section Quantize.
Context {F D : Type}.
Variable O : fops F.
Variable W : wide_ops F D.
Variable Q : round_ops F D.
Variable junk : nat -> Z.      (* what freshly allocated memory contains *)

(** src/matrix.cc:328-346, [FindMinMax] of the matrix [v] in the block [b]. *)
Definition find_min_max (b : list F) (v : view) : res (F * F) :=
  n <- int (v_cols v * v_rows v) ;;
  for_up 0 n (fun '(mn, mx) i =>
    x <- getZ b (v_off v + i) ;;
    Ok (if f_lt O x mn then x else mn, if f_lt O mx x then x else mx)) (q_max Q, q_min Q).

(** src/matrix.cc:348-364, [ComputeQuantizationParams]. The conversion to
    [int32_t] of a value outside its range is undefined. *)
Definition quant_params (b : list F) (v : view) : res (params F) :=
  '(mn, mx) <- find_min_max b v ;;
  let scale := wd_div W (wd_of W (f_sub O mx mn)) (wd_int W 255) in
  let zero := wd_div W (wd_of W (wd_neg W mn)) scale in
  match q_round Q zero with
  | None => Fault Undef
  | Some z => _ <- check (in_int32 z) Undef ;; Ok (mk_params (wd_to W scale) z)
  end.

(** src/matrix.cc:382-385, the loop body: one element. *)
Definition quant_value (p : params F) (x : F) : res Z :=
  let x := f_add O (f_div O x (p_scale p)) (f_int O (p_zero p)) in
  let x := if f_lt O (f_int O 255) x then f_int O 255 else x in
  let x := if f_lt O (f_zero O) x then x else f_zero O in
  match q_roundf Q x with
  | None => Fault Undef
  | Some q => _ <- check (is_byte q) Undef ;; Ok q
  end.

(** src/matrix.cc:366-387, [Quantize]. The elements of [dest] are written one
    after the other, whatever its stride. *)
Definition quantize (b : list F) (v : view) (dest : mat Z) : res (mat Z * params F) :=
  _ <- check (v_stride v =? v_cols v) Assert ;;
  _ <- check (negb (v_cols v =? 0) && negb (v_rows v =? 0)) Assert ;;
  p <- quant_params b v ;;
  dest <- (if negb (v_cols (m_view dest) =? v_cols v) || negb (v_rows (m_view dest) =? v_rows v)
           then mat_resize 0 1 junk dest (v_rows v) (v_cols v) Undefined StrideEqualNumCols
           else Ok dest) ;;
  n <- int (v_cols v * v_rows v) ;;
  match m_block dest with
  | None => Fault Undef
  | Some d =>
      d <- for_up 0 n (fun d i =>
             x <- getZ b (v_off v + i) ;;
             q <- quant_value p x ;;
             setZ d (v_off (m_view dest) + i) q) d ;;
      Ok (mk_mat (Some d) (m_view dest), p)
  end.
End Quantize.
