(** Products of quantised matrices. *)
From Coq Require Import ZArith Reals List.
From Verif.Base Require Import Prelude.
From Verif.Model Require Import Matrix.
From Verif.Spec Require Import MatrixSpec QuantizeSpec.
Open Scope R_scope.

(** Two matrices that can be multiplied into a third; none has gaps between its
    rows, none of the factors is a single number, and the product has less than
    [2 ^ 29] elements. *)
Definition multiplies (va vb vc : view) : Prop :=
  (v_stride va = v_cols va /\ v_stride vb = v_cols vb /\ v_stride vc = v_cols vc /\
   v_cols va = v_rows vb /\ v_rows va = v_rows vc /\ v_cols vb = v_cols vc /\
   1 < v_rows va * v_cols va /\ 1 < v_rows vb * v_cols vb /\
   v_rows vc * v_cols vc * 4 + 32 <= int_max)%Z.

(** The distance between neighbouring values of a matrix with elements from [lo]
    to [hi] after quantisation. *)
Definition step (lo hi : R) : R := (Rmax hi float_min - lo) / 255.

(** An element of a product, and how far from it the product of the quantised
    matrices may be. *)
Definition exact_product (fa fb : Z -> Z -> R) (n : nat) (i j : Z) : R :=
  sum_of Rplus (fun k => fa i k * fb k j) 0 n.
Definition allowed_error (fa fb : Z -> Z -> R) (sa sb : R) (n : nat) (i j : Z) : R :=
  sum_of Rplus (fun k => (Rabs (fa i k) * sb + Rabs (fb k j) * sa) / 2 + sa * sb / 4) 0 n.
