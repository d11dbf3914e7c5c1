(** Model of src/matrix.h and src/matrix.cc: storage. A matrix is a view of a
    block of memory, given by the place of its first element, its dimensions and
    its stride; Model/Nnet.v works with lists of rows instead. *)
From Coq Require Import ZArith List Bool.
From Verif.Base Require Import Prelude.
From Verif.Model Require Import Vector.
Import ListNotations.
Open Scope Z_scope.

(** The result of [int] arithmetic. *)
Definition int (z : Z) : res Z := _ <- check (in_int32 z) Undef ;; Ok z.

(** src/matrix.h:127-133, the members of [MatrixBase]; [v_off] is [data_] as an
    index into the block. *)
Record view : Type := mk_view { v_off : Z; v_rows : Z; v_cols : Z; v_stride : Z }.

(** A [Matrix] with the block it owns; [None] is the null pointer. *)
Record mat (A : Type) : Type := mk_mat { m_block : option (list A); m_view : view }.
Arguments mk_mat {A}. Arguments m_block {A}. Arguments m_view {A}.

Definition no_view : view := mk_view 0 0 0 0.

(** The enumerations of src/matrix.h:28-31 and 140-148. *)
Inductive trans : Type := Trans | NoTrans.
Inductive resize_type : Type := SetZero | Undefined | CopyData.
Inductive stride_type : Type := DefaultStride | StrideEqualNumCols.

Section Matrix.
Context {A : Type}.
Variable zero : A.             (* all bytes zero *)
Variable width : Z.            (* sizeof(Real) *)
Variable junk : nat -> A.      (* what freshly allocated memory contains *)

(** src/matrix.h:61-71, [operator()]: the place of an element. Negative indices
    are not asserted against. *)
Definition place (v : view) (r c : Z) : res Z :=
  _ <- check ((r <? v_rows v) && (c <? v_cols v)) Assert ;;
  i <- int (r * v_stride v) ;;
  Ok (v_off v + i + c).
Definition mget (b : list A) (v : view) (r c : Z) : res A :=
  i <- place v r c ;; getZ b i.
Definition mset (b : list A) (v : view) (r c : Z) (x : A) : res (list A) :=
  i <- place v r c ;; setZ b i x.

(** src/matrix.h:74-83, [Row]: where the row begins; it has [v_cols] elements. *)
Definition row_start (v : view) (r : Z) : res Z :=
  _ <- check (r <? v_rows v) Assert ;;
  i <- int (r * v_stride v) ;;
  Ok (v_off v + i).

(** src/vector.cc:72-79, [CopyFromVec]: [n] elements from [src] in one block to
    [dst] in another. *)
Definition copy_cells (b : list A) (dst : Z) (b' : list A) (src n : Z) : res (list A) :=
  for_up 0 n (fun b j => x <- getZ b' (src + j) ;; setZ b (dst + j) x) b.

(** src/matrix.cc:20-38, [CopyFromMat] from the matrix [v'] in the block [b'];
    the two blocks are different. *)
Definition copy_from_mat (b : list A) (v : view) (b' : list A) (v' : view) (t : trans) : res (list A) :=
  match t with
  | NoTrans =>
      _ <- check ((v_rows v =? v_rows v') && (v_cols v =? v_cols v')) Assert ;;
      for_up 0 (v_rows v) (fun b i =>
        dst <- row_start v i ;;
        src <- row_start v' i ;;
        _ <- check (v_cols v =? v_cols v') Assert ;;
        copy_cells b dst b' src (v_cols v)) b
  | Trans =>
      _ <- check ((v_cols v =? v_rows v') && (v_rows v =? v_cols v')) Assert ;;
      for_up 0 (v_rows v) (fun b i =>
        for_up 0 (v_cols v) (fun b j =>
          k <- int (i * v_stride v) ;; k <- int (k + j) ;;
          k' <- int (j * v_stride v') ;; k' <- int (k' + i) ;;
          x <- getZ b' (v_off v' + k') ;;
          setZ b (v_off v + k) x) b) b
  end.

(** src/matrix.cc:48-58, [Transpose]. *)
Definition transpose (b : list A) (v : view) : res (list A) :=
  _ <- check (v_rows v =? v_cols v) Assert ;;
  for_up 0 (v_rows v) (fun b i =>
    for_up 0 i (fun b j =>
      p <- place v i j ;;
      q <- place v j i ;;
      x <- getZ b p ;;
      y <- getZ b q ;;
      b <- setZ b p y ;;
      setZ b q x) b) b.

(** src/matrix.cc:60-95, [Init]. [cols % (16 / sizeof(Real))] and what follows is
    unsigned. The number of bytes fits into [size_t] because the product of the
    dimensions fits into [int]; the allocation is assumed to succeed. *)
Definition mat_init (rows cols : Z) (s : stride_type) : res (mat A) :=
  n <- int (rows * cols) ;;
  if n =? 0
  then _ <- check ((rows =? 0) && (cols =? 0)) Assert ;; Ok (mk_mat None no_view)
  else
    _ <- check ((0 <? rows) && (0 <? cols)) Assert ;;
    let k := 16 / width in
    let skip := (k - cols mod k) mod k in
    stride <- int (cols + skip) ;;
    Ok (mk_mat (Some (map junk (seq 0 (Z.to_nat (rows * stride)))))
               (mk_view 0 rows cols (match s with DefaultStride => stride | StrideEqualNumCols => cols end))).

(** [memset] of [n] elements. *)
Definition zero_cells (b : list A) (at_ n : Z) : res (list A) :=
  for_up 0 n (fun b j => setZ b (at_ + j) zero) b.

(** src/matrix.cc:246-253, [SetZero]; for the null pointer, [memset] with size
    0. *)
Definition set_zero (m : mat A) : res (mat A) :=
  let v := m_view m in
  match m_block m with
  | None => Ok m
  | Some b =>
      b <- (if v_cols v =? v_stride v then zero_cells b (v_off v) (v_rows v * v_cols v)
            else for_up 0 (v_rows v) (fun b r =>
                   i <- int (r * v_stride v) ;; zero_cells b (v_off v + i) (v_cols v)) b) ;;
      Ok (mk_mat (Some b) v)
  end.

(** src/matrix.cc:196-220, [SubMatrix] and [Range]; the offsets are assumed not
    to be negative when converted to [size_t]. *)
Definition sub_matrix (v : view) (ro r co c : Z) : res view :=
  if (r =? 0) || (c =? 0)
  then _ <- check ((c =? 0) && (r =? 0)) Assert ;; Ok no_view
  else
    _ <- check ((ro <? v_rows v) && (co <? v_cols v) && (r <=? v_rows v - ro) && (c <=? v_cols v - co)) Assert ;;
    Ok (mk_view (v_off v + co + ro * v_stride v) r c (v_stride v)).

(** src/matrix.cc:97-141, [Resize] without copying. *)
Definition resize_fresh (m : mat A) (rows cols : Z) (z : bool) (s : stride_type) : res (mat A) :=
  match m_block m with
  | Some _ =>
      if (rows =? v_rows (m_view m)) && (cols =? v_cols (m_view m))
      then if z then set_zero m else Ok m
      else m <- mat_init rows cols s ;; if z then set_zero m else Ok m
  | None => m <- mat_init rows cols s ;; if z then set_zero m else Ok m
  end.

(** src/matrix.cc:97-141, [Resize]. The new matrix of a copy always has the
    number of columns as its stride (line 117). *)
Definition mat_resize (m : mat A) (rows cols : Z) (t : resize_type) (s : stride_type) : res (mat A) :=
  match t with
  | SetZero => resize_fresh m rows cols true s
  | Undefined => resize_fresh m rows cols false s
  | CopyData =>
      let v := m_view m in
      match m_block m with
      | None => resize_fresh m rows cols true s
      | Some b =>
          if rows =? 0 then resize_fresh m rows cols true s
          else if (rows =? v_rows v) && (cols =? v_cols v) then Ok m
          else
            tmp <- resize_fresh (mk_mat None no_view) rows cols
                     ((rows >? v_rows v) || (cols >? v_cols v)) StrideEqualNumCols ;;
            dst <- sub_matrix (m_view tmp) 0 (Z.min rows (v_rows v)) 0 (Z.min cols (v_cols v)) ;;
            src <- sub_matrix v 0 (Z.min rows (v_rows v)) 0 (Z.min cols (v_cols v)) ;;
            b' <- copy_from_mat (match m_block tmp with Some b' => b' | None => [] end) dst b src NoTrans ;;
            Ok (mk_mat (Some b') (m_view tmp))
      end
  end.

End Matrix.

Section Product.
Context {A : Type}.
Variable zero : A.
Variable add mul : A -> A -> A.

(** src/matrix.cc:275-292, [SimpleMatMat] into a matrix in a block of its own,
    which [SetZero] cleared before. *)
Definition simple_mat_mat (a : list A) (va : view) (b : list A) (vb : view) (c : list A) (vc : view)
  : res (list A) :=
  _ <- check (v_cols vb =? v_cols vc) Assert ;;
  _ <- check (v_rows va =? v_rows vc) Assert ;;
  _ <- check (v_cols va =? v_rows vb) Assert ;;
  m <- set_zero zero (mk_mat (Some c) vc) ;;
  for_up 0 (v_rows va) (fun c row =>
    for_up 0 (v_cols vb) (fun c col =>
      for_up 0 (v_cols va) (fun c k =>
        z <- mget c vc row col ;;
        x <- mget a va row k ;;
        y <- mget b vb k col ;;
        mset c vc row col (add z (mul x y))) c) c)
    (match m_block m with Some c => c | None => [] end).
End Product.
