(** Model of the binary model files: [Vector::Read], [Matrix::Read] and the
    [Read] functions of src/nnet.cc. Elements are 32-bit words, taken as signed
    integers; for [float] they are the bit patterns. *)
From Coq Require Import ZArith List Bool.
From Verif.Base Require Import Prelude.
From Verif.Model Require Import Util File Binary Vector Nnet.
Import ListNotations.
Open Scope Z_scope.
Open Scope io_scope.

(** A stored element; [None] is an element whose value is not known (memory
    that was never written, or written by a read that failed half-way). *)
Notation cell := (option Z).

Definition s_vec0 : bytes := [86; 69; 67; 48].   (* "VEC0" *)
Definition s_mat0 : bytes := [77; 65; 84; 48].   (* "MAT0" *)
Definition s_lay0 : bytes := [76; 65; 89; 48].   (* "LAY0" *)
Definition s_nn02 : bytes := [78; 78; 48; 50].   (* "NN02" *)

(** The words of a buffer of [n] words. *)
Fixpoint words (n : nat) (b : bytes) : list Z :=
  match n with
  | O => []
  | S n => le_signed (firstn 4 b) :: words n (skipn 4 b)
  end.

(** src/vector.cc:272-292: section name, size and dimension. The comparison is
    one of [size_t] values. *)
Definition vec_header : io Z :=
  _ <-- io_verify s_vec0 ;;
  section_size <-- io_int 4 ;;
  dim <-- io_int 4 ;;
  _ <-- io_check (size_t (dim * 4 + 4) =? size_t section_size) ;;
  io_ret dim.

(** src/vector.cc:267-300, [Vector::Read] into a vector that holds [old]: the
    status, the new content and the file. A failed [Read] of the data leaves
    the content unknown. *)
Definition vec_read (old : list cell) (f : file) : res (bool * list cell * file) :=
  '(h, f) <- vec_header f ;;
  match h with
  | None => Ok (false, old, f)
  | Some dim =>
      _ <- vec_init 4 dim ;;
      '(b, f) <- read f (dim * 4) ;;
      match b with
      | None => Ok (false, repeat None (Z.to_nat dim), f)
      | Some b => Ok (true, map Some (words (Z.to_nat dim) b), f)
      end
  end.

(** [PK_CHECK_STATUS(v.Read(fd))] for a new vector. *)
Definition io_vector : io (list cell) := fun f =>
  '(ok, v, f) <- vec_read [] f ;; Ok (if ok : bool then Some v else None, f).

(** src/matrix.cc:60-95, [Init]: the shape of a matrix of [float]. The [int]
    product and the padded row length are undefined if they overflow. Memory
    exhaustion is not modelled. *)
Definition mat_init (rows cols : Z) : res unit :=
  _ <- check (in_int32 (rows * cols)) Undef ;;
  _ <- mat_shape rows cols ;;
  check (in_int32 (cols + (4 - cols mod 4) mod 4)) Undef.

(** src/matrix.cc:176-189, the loop over [n] rows. The status of
    [row_read.Read] is ignored; [old] is the content of [row_read]. *)
Fixpoint mat_rows (n : nat) (cols : Z) (old : list cell) (f : file)
  : res (option (matrix cell) * file) :=
  match n with
  | O => Ok (Some [], f)
  | S n =>
      '(_, row, f) <- vec_read old f ;;
      if negb (lenZ row =? cols) then Ok (None, f)
      else
        '(m, f) <- mat_rows n cols row f ;;
        Ok (match m with None => None | Some m => Some (row :: m) end, f)
  end.

(** src/matrix.cc:160-191, [Matrix::Read] into a new matrix. *)
Definition mat_read : io (matrix cell) :=
  _ <-- io_verify s_mat0 ;;
  _ <-- io_int 4 ;;                                (* section_size *)
  num_rows <-- io_int 4 ;;
  num_cols <-- io_int 4 ;;
  fun f =>
    _ <- mat_init num_rows num_cols ;;
    mat_rows (Z.to_nat num_rows) num_cols [] f.

(** src/nnet.cc:89-92, [n] indices. *)
Fixpoint read_indices (n : nat) : io (list Z) :=
  match n with
  | O => io_ret []
  | S n => i <-- io_int 4 ;; l <-- read_indices n ;; io_ret (i :: l)
  end.

(** src/nnet.cc:221-271, [ReadLayer], with the [Read] functions of the layers
    (38-43, 77-95, 119-124, 204-215; the others read nothing). *)
Definition read_layer : io (layer cell) :=
  _ <-- io_verify s_lay0 ;;
  layer_type <-- io_int 4 ;;
  if layer_type =? 0 then
    W <-- mat_read ;; b <-- io_vector ;; io_ret (Linear W b)
  else if layer_type =? 1 then io_ret ReLU
  else if layer_type =? 2 then io_ret Normalize
  else if layer_type =? 3 then io_ret Softmax
  else if layer_type =? 6 then
    n <-- io_int 4 ;;
    _ <-- io_check (negb (n <? 0)) ;;
    idx <-- read_indices (Z.to_nat n) ;;
    io_ret (Splice idx)
  else if layer_type =? 7 then
    s <-- io_vector ;; o <-- io_vector ;; io_ret (BatchNorm s o)
  else if layer_type =? 8 then io_ret LogSoftmax
  else if layer_type =? 9 then
    l <-- io_int 4 ;; r <-- io_int 4 ;; io_ret (Narrow l r)
  else io_fail.

(** src/nnet.cc:287-290. *)
Fixpoint read_layers (n : nat) : io (list (layer cell)) :=
  match n with
  | O => io_ret []
  | S n => l <-- read_layer ;; ls <-- read_layers n ;; io_ret (l :: ls)
  end.

(** src/nnet.cc:273-293, [Nnet::Read] into a new network: left context, right
    context and layers. *)
Definition nnet_read : io (Z * Z * list (layer cell)) :=
  _ <-- io_verify s_nn02 ;;
  left_context <-- io_int 4 ;;
  right_context <-- io_int 4 ;;
  num_layers <-- io_int 4 ;;
  ls <-- read_layers (Z.to_nat num_layers) ;;
  io_ret (left_context, right_context, ls).
