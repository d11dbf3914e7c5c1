(** Quantised matrices. *)
From Coq Require Import ZArith Reals List.
From Verif.Base Require Import Prelude.
From Verif.Model Require Import Matrix.
From Verif.Spec Require Import MatrixSpec.
Open Scope R_scope.

(** The greatest finite and the least positive normal [float]. *)
Definition float_max : R := IZR (2 ^ 24 - 1) * IZR (2 ^ 104).
Definition float_min : R := / IZR (2 ^ 126).

(** [x] is an element of the matrix. *)
Definition occurs (b : list R) (v : view) (x : R) : Prop :=
  exists r c, index v r c /\ mget b v r c = Ok x.

(** [lo] is the least and [hi] the greatest element. *)
Definition extremes (b : list R) (v : view) (lo hi : R) : Prop :=
  occurs b v lo /\ occurs b v hi /\ forall x, occurs b v x -> lo <= x <= hi.

(** The elements are not too close to one another for their size: some two
    elements, or an element that is not positive and itself, satisfy this. *)
Definition spread (b : list R) (v : view) : Prop :=
  exists x y, occurs b v x /\ occurs b v y /\ 255 * x <= IZR (2 ^ 31) * (y - x).

(** A destination that has the dimensions of [v] and no gaps between the rows,
    or has other dimensions and can be given those of [v]. *)
Definition receives (v : view) (dest : mat Z) : Prop :=
  (proper dest /\ v_rows (m_view dest) = v_rows v /\ v_cols (m_view dest) = v_cols v /\
   v_stride (m_view dest) = v_cols v) \/
  ((proper dest \/ m_block dest = None) /\
   (v_rows (m_view dest) <> v_rows v \/ v_cols (m_view dest) <> v_cols v) /\
   fits 1 (v_rows v) (v_cols v) StrideEqualNumCols).

(** [m] holds [x] at the place [r], [c] up to half a step. *)
Definition approximates (m : mat Z) (scale : R) (zero : Z) (r c : Z) (x : R) : Prop :=
  exists q, element m r c = Ok q /\ (0 <= q <= 255)%Z /\
    Rabs (x - scale * IZR (q - zero)) <= scale / 2.
