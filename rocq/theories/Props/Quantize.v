(** Quantisation to 8 bits over the real numbers (C54). *)
From Coq Require Import ZArith Reals List.
From Verif.Base Require Import Prelude.
From Verif.Model Require Import Matrix Quantize Exact.
From Verif.Spec Require Import MatrixSpec QuantizeSpec.
From Verif.Proof Require Quantize QuantizeCases.
Import ListNotations.
Open Scope R_scope.

(** Missing from the claim: matrices of positive elements that differ by less
    than about [255 / 2 ^ 31] of their size, and destinations that have the right
    dimensions but gaps between their rows; both are refuted below. *)
Theorem quantisation_error_partial : forall junk b v dest,
  inside v (lenZ b) -> v_stride v = v_cols v -> receives v dest ->
  (forall x, occurs b v x -> x <= float_max) -> spread b v ->
  exists m p, quantize rops rwide rround junk b v dest = Ok (m, p) /\
    proper m /\ v_rows (m_view m) = v_rows v /\ v_cols (m_view m) = v_cols v /\ v_stride (m_view m) = v_cols v /\
    0 < p_scale p /\
    (forall lo hi, extremes b v lo hi -> 255 * p_scale p = Rmax hi float_min - lo /\
       Rabs (IZR (p_zero p) + lo / p_scale p) <= / 2) /\
    forall r c x, index v r c -> mget b v r c = Ok x -> approximates m (p_scale p) (p_zero p) r c x.
Proof. exact Proof.Quantize.quantize_ok. Qed.
Print Assumptions quantisation_error_partial.

Example quantisation_error_case :
  let b := [-1; 3] in let v := mk_view 0 1 2 2 in
  inside v (lenZ b) /\ v_stride v = v_cols v /\ receives v (mk_mat None no_view) /\
  (forall x, occurs b v x -> x <= float_max) /\ spread b v /\ extremes b v (-1) 3.
Proof. exact Proof.QuantizeCases.quantize_case. Qed.
Print Assumptions quantisation_error_case.

Theorem quantisation_close_refuted : forall junk b v dest lo hi,
  inside v (lenZ b) -> v_stride v = v_cols v ->
  (forall x, occurs b v x -> x <= float_max) -> extremes b v lo hi -> float_min <= lo < hi ->
  (IZR (2 ^ 31) + 1) * (hi - lo) < 255 * lo ->
  quantize rops rwide rround junk b v dest = Fault Undef.
Proof. exact Proof.QuantizeCases.too_close. Qed.
Print Assumptions quantisation_close_refuted.

Example quantisation_close_case :
  let b := [3 / 2; 3 / 2 + / IZR (2 ^ 23)] in let v := mk_view 0 1 2 2 in
  inside v (lenZ b) /\ v_stride v = v_cols v /\ (forall x, occurs b v x -> 0 < x <= float_max) /\
  extremes b v (3 / 2) (3 / 2 + / IZR (2 ^ 23)) /\ 3 / 2 <> 3 / 2 + / IZR (2 ^ 23) /\
  forall junk dest, quantize rops rwide rround junk b v dest = Fault Undef.
Proof. exact Proof.QuantizeCases.close_case. Qed.
Print Assumptions quantisation_close_case.

Theorem quantisation_gaps_refuted : forall junk,
  let b := [0; 255] in let v := mk_view 0 2 1 1 in
  let dest := mk_mat (Some (repeat 7%Z 17)) (mk_view 0 2 1 16) in
  exists m p, inside v (lenZ b) /\ proper dest /\
    v_rows (m_view dest) = v_rows v /\ v_cols (m_view dest) = v_cols v /\ spread b v /\
    quantize rops rwide rround junk b v dest = Ok (m, p) /\
    mget b v 1 0 = Ok 255 /\ ~ approximates m (p_scale p) (p_zero p) 1 0 255.
Proof. exact Proof.QuantizeCases.gaps_wrong. Qed.
Print Assumptions quantisation_gaps_refuted.
