(** Model of src/nnet.cc, [Propagate] of the layers and of the network. A matrix
    is the list of its rows; strides are not modelled here. [int] sums of row
    numbers are assumed not to overflow. *)
From Coq Require Import ZArith List Bool.
From Verif.Base Require Import Prelude.
From Verif.Model Require Import Arith Vector Fbank.
Import ListNotations.
Open Scope Z_scope.

Notation matrix F := (list (list F)).

Definition num_cols {F} (m : matrix F) : Z :=
  match m with
  | [] => 0
  | r :: _ => lenZ r
  end.

(** src/matrix.cc:60-73, the assertions of [Matrix::Init]. *)
Definition mat_shape (rows cols : Z) : res unit :=
  if rows * cols =? 0 then check ((rows =? 0) && (cols =? 0)) Assert
  else check ((0 <? rows) && (0 <? cols)) Assert.

(** src/nnet.h:20-30 and the members of the layer classes. *)
Inductive layer (F : Type) : Type :=
| Linear (W : matrix F) (b : list F)
| ReLU
| Normalize
| Softmax
| Splice (indices : list Z)
| BatchNorm (scale offset : list F)
| LogSoftmax
| Narrow (left right : Z).
Arguments Linear {F}. Arguments ReLU {F}. Arguments Normalize {F}. Arguments Softmax {F}.
Arguments Splice {F}. Arguments BatchNorm {F}. Arguments LogSoftmax {F}. Arguments Narrow {F}.

Fixpoint map2 {A B C} (f : A -> B -> C) (a : list A) (b : list B) : list C :=
  match a, b with
  | x :: a, y :: b => f x y :: map2 f a b
  | _, _ => []
  end.

(** A loop over the rows of a matrix. *)
Fixpoint map_rows {A B} (f : A -> res B) (m : list A) : res (list B) :=
  match m with
  | [] => Ok []
  | r :: m => r <- f r ;; m <- map_rows f m ;; Ok (r :: m)
  end.

Section Float.
Context {F : Type} (O : fops F).

(** src/vector.cc:239-258, [AddVec] with alpha 1 and with another alpha. *)
Definition add_vec (row v : list F) : res (list F) :=
  _ <- check (lenZ row =? lenZ v) Assert ;; Ok (map2 (f_add O) row v).
Definition add_vec_scaled (alpha : F) (row v : list F) : res (list F) :=
  _ <- check (lenZ row =? lenZ v) Assert ;;
  Ok (map2 (fun x y => f_add O x (f_mul O alpha y)) row v).

(** src/vector.cc:217-223, [MulElements]. *)
Definition mul_elements (row v : list F) : res (list F) :=
  _ <- check (lenZ v =? lenZ row) Assert ;; Ok (map2 (f_mul O) row v).

(** src/vector.cc:94-107, [ApplySoftMax]. *)
Definition apply_softmax (row : list F) : list F :=
  let es := map (f_expf O) row in
  let sum := fold_left (f_add O) es (f_zero O) in
  map (fun e => f_div O e sum) es.

(** src/vector.cc:109-122, [ApplyLogSoftMax]. *)
Definition apply_log_softmax (row : list F) : list F :=
  let sum := fold_left (fun s x => f_add O s (f_exp O x)) row (f_zero O) in
  let logsum := f_log O sum in
  map (fun x => f_sub O x logsum) row.

(** Column [j] of a matrix; rows are never shorter than [num_cols]. *)
Definition column (j : nat) (m : matrix F) : list F := map (fun r => nth j r (f_zero O)) m.

(** src/matrix.cc:300-323, [MatMat]: the row of the product that belongs to
    [row]. *)
Definition mat_row (W : matrix F) (row : list F) : list F :=
  map (fun j => f_dot O row (column j W)) (seq 0 (Z.to_nat (num_cols W))).

(** src/nnet.cc:22-36. *)
Definition linear (W : matrix F) (b : list F) (m : matrix F) : res (matrix F) :=
  _ <- check (negb (lenZ b =? 0)) Assert ;;
  _ <- mat_shape (lenZ m) (num_cols W) ;;
  _ <- check (num_cols m =? lenZ W) Assert ;;
  map_rows (fun row => add_vec (mat_row W row) b) m.

(** src/nnet.cc:63-73, the row [row_idx] of the output of a splice. *)
Definition splice_row (indices : list Z) (m : matrix F) (row_idx : Z) : res (list F) :=
  for_each indices (fun out c =>
    let cnt := row_idx + c in
    let cnt := if cnt <? 0 then 0 else cnt in
    let cnt := if cnt >? lenZ m - 1 then lenZ m - 1 else cnt in
    r <- getZ m cnt ;;
    r <- vcopy (num_cols m) r ;;
    Ok (out ++ r)) [].

(** src/nnet.cc:50-75; with an empty input the output keeps its old value. *)
Definition splice (indices : list Z) (m old : matrix F) : res (matrix F) :=
  _ <- check (negb (lenZ indices =? 0)) Assert ;;
  if (lenZ m =? 0) || (num_cols m =? 0) then Ok old
  else
    _ <- mat_shape (lenZ m) (lenZ indices * num_cols m) ;;
    map_rows (splice_row indices m) (seqZ 0 (length m)).

(** src/nnet.cc:106-117. *)
Definition batch_norm (scale offset : list F) (m : matrix F) : res (matrix F) :=
  _ <- check (0 <? lenZ scale) Assert ;;
  map_rows (fun row => row <- mul_elements row scale ;; add_vec row offset) m.

(** src/nnet.cc:149-160. *)
Definition relu_row (row : list F) : list F :=
  map (fun x => if f_lt O x (f_zero O) then f_zero O else x) row.

(** src/nnet.cc:162-175. *)
Definition normalize_row (row : list F) : res (list F) :=
  s <- vec_vec O row row ;;
  let scale := f_norm O (f_int O (lenZ row)) s in
  Ok (map (fun x => f_mul O x scale) row).

(** src/nnet.cc:182-202. The sub-matrix needs columns, which a matrix with rows
    always has. *)
Definition narrow (l r : Z) (m : matrix F) : res (matrix F) :=
  _ <- check (0 <=? l) Assert ;;
  if lenZ m <=? l + r then Ok m
  else
    let n := lenZ m - l - r in
    _ <- mat_shape n (num_cols m) ;;
    _ <- check ((l <? lenZ m) && (n <=? lenZ m - l)) Assert ;;
    Ok (firstn (Z.to_nat n) (skipn (Z.to_nat l) m)).

(** [Propagate] of a layer into a matrix that holds [old]. *)
Definition propagate (l : layer F) (m old : matrix F) : res (matrix F) :=
  match l with
  | Linear W b => linear W b m
  | ReLU => Ok (map relu_row m)
  | Normalize => map_rows normalize_row m
  | Softmax => Ok (map apply_softmax m)
  | Splice idx => splice idx m old
  | BatchNorm s o => batch_norm s o m
  | LogSoftmax => Ok (map apply_log_softmax m)
  | Narrow l r => narrow l r m
  end.

(** src/nnet.cc:295-307, [Nnet::Propagate]: two matrices are swapped after each
    layer. *)
Fixpoint propagate_all (ls : list (layer F)) (input output : matrix F) : res (matrix F) :=
  match ls with
  | [] => Ok input
  | l :: ls => m <- propagate l input output ;; propagate_all ls m input
  end.

Definition nnet_propagate (ls : list (layer F)) (m : matrix F) : res (matrix F) :=
  propagate_all ls m [].

End Float.
