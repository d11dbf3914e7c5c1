(** Matrices in memory as lists of rows. *)
From Coq Require Import ZArith List.
From Verif.Base Require Import Prelude.
From Verif.Model Require Import Matrix.
From Verif.Spec Require Import MatrixSpec AmSpec.
Open Scope Z_scope.

(** The matrix [v] in the block [b] has the rows [rows]. *)
Definition holds {A} (b : list A) (v : view) (rows : list (list A)) : Prop :=
  inside v (lenZ b) /\ lenZ rows = v_rows v /\ uniform (v_cols v) rows /\
  forall r c, index v r c -> mget b v r c = (row <- getZ rows r ;; getZ row c).

(** The matrix [m] owns memory and has the rows [rows]. *)
Definition owns {A} (m : mat A) (rows : list (list A)) : Prop :=
  exists b, m_block m = Some b /\ holds b (m_view m) rows.

(** Element [j] of row [i] of the one list is element [i] of row [j] of the
    other. *)
Definition transposed {A} (rows cols : list (list A)) : Prop :=
  (forall row, In row rows -> lenZ row = lenZ cols) /\ (forall col, In col cols -> lenZ col = lenZ rows) /\
  forall i j, (row <- getZ rows i ;; getZ row j) = (col <- getZ cols j ;; getZ col i).
