(** Matrices as views of a block of memory. *)
From Coq Require Import ZArith List.
From Verif.Base Require Import Prelude.
From Verif.Model Require Import Matrix.
Open Scope Z_scope.

(** The indices of elements. *)
Definition index (v : view) (r c : Z) : Prop := 0 <= r < v_rows v /\ 0 <= c < v_cols v.

(** A matrix with elements in a block of [n] cells, its last cell within the
    range of [int]. *)
Definition inside (v : view) (n : Z) : Prop :=
  0 <= v_off v /\ 0 < v_rows v /\ 0 < v_cols v <= v_stride v /\
  (v_rows v - 1) * v_stride v + v_cols v <= int_max /\
  v_off v + (v_rows v - 1) * v_stride v + v_cols v <= n.

(** [b'] differs from [b] at most in elements of [v]. *)
Definition only {A} (v : view) (b b' : list A) : Prop :=
  length b' = length b /\
  forall i, (forall r c, index v r c -> place v r c <> Ok i) -> getZ b' i = getZ b i.

(** The sum of the products, from [zero] on, in order. *)
Fixpoint sum_of {A} (add : A -> A -> A) (f : Z -> A) (zero : A) (n : nat) : A :=
  match n with
  | O => zero
  | S n => add (sum_of add f zero n) (f (Z.of_nat n))
  end.

(** The number of columns rounded up to whole lines of 16 bytes. *)
Definition padded (width cols : Z) : Z :=
  (cols + 16 / width - 1) / (16 / width) * (16 / width).

(** Dimensions whose element numbers are in the range of [int]. *)
Definition fits (width rows cols : Z) (s : stride_type) : Prop :=
  0 < rows /\ 0 < cols /\
  match s with
  | DefaultStride => rows * padded width cols <= int_max
  | StrideEqualNumCols => rows * cols <= int_max /\ padded width cols <= int_max
  end.

(** The element types: 1, 2, 4, 8 or 16 bytes. *)
Definition element_size (width : Z) : Prop := 0 < width /\ 16 mod width = 0.

(** A matrix with elements, in its own block. *)
Definition proper {A} (m : mat A) : Prop :=
  exists b, m_block m = Some b /\ inside (m_view m) (lenZ b).

(** Element access of a matrix. *)
Definition element {A} (m : mat A) (r c : Z) : res A :=
  match m_block m with
  | None => Fault Undef
  | Some b => mget b (m_view m) r c
  end.
