(** Properties of the network layers (C62), for any interpretation of the
    floating-point operations; [d] is only a default for [nth]. *)
From Coq Require Import ZArith List.
From Verif.Base Require Import Prelude.
From Verif.Model Require Import Arith Vector Nnet.
From Verif.Spec Require Import AmSpec FbankSpec NnetSpec.
From Verif.Proof Require Layers ZOps.
Import ListNotations.
Open Scope Z_scope.

Theorem layer_linear_formula : forall F (O : fops F) (W : matrix F) b x old n k d,
  uniform k W -> lenZ W = n -> uniform n x -> lenZ b = k -> 0 < n -> 0 < k -> x <> [] ->
  exists y, propagate O (Linear W b) x old = Ok y /\ length y = length x /\ uniform k y /\
    forall i j, (i < length x)%nat -> (j < length b)%nat ->
      nth j (nth i y []) d = f_add O (f_dot O (nth i x []) (map (fun r => nth j r d) W)) (nth j b d).
Proof. exact @Proof.Layers.linear_formula. Qed.
Print Assumptions layer_linear_formula.

Theorem layer_splice_formula : forall F (O : fops F) idx (x : matrix F) old c d,
  idx <> [] -> uniform c x -> x <> [] -> 0 < c ->
  exists y, propagate O (Splice idx) x old = Ok y /\ length y = length x /\ uniform (lenZ idx * c) y /\
    forall i k j, (i < length x)%nat -> (k < length idx)%nat -> (j < Z.to_nat c)%nat ->
      nth (k * Z.to_nat c + j) (nth i y []) d =
      nth j (nth (Z.to_nat (Z.min (Z.max (Z.of_nat i + nth k idx 0) 0) (lenZ x - 1))) x []) d.
Proof. exact @Proof.Layers.splice_formula. Qed.
Print Assumptions layer_splice_formula.

Theorem layer_narrow_formula : forall F (O : fops F) l r (x : matrix F) old c,
  0 <= l -> 0 <= r -> uniform c x -> 0 < c ->
  exists y, propagate O (Narrow l r) x old = Ok y /\
    (lenZ x <= l + r -> y = x) /\
    (l + r < lenZ x -> lenZ y = lenZ x - l - r /\
       forall i, (i < length y)%nat -> nth i y [] = nth (Z.to_nat l + i) x []).
Proof. exact @Proof.Layers.narrow_formula. Qed.
Print Assumptions layer_narrow_formula.

Theorem layer_batch_norm_formula : forall F (O : fops F) s o (x : matrix F) old c d, lenZ s = c -> lenZ o = c -> uniform c x -> 0 < c -> x <> [] ->
  exists y, propagate O (BatchNorm s o) x old = Ok y /\ length y = length x /\ uniform c y /\
    forall i j, (i < length x)%nat -> (j < Z.to_nat c)%nat ->
      nth j (nth i y []) d = f_add O (f_mul O (nth j (nth i x []) d) (nth j s d)) (nth j o d).
Proof. exact @Proof.Layers.batch_norm_formula. Qed.
Print Assumptions layer_batch_norm_formula.

Theorem layer_relu_formula : forall F (O : fops F) (x : matrix F) old d,
  exists y, propagate O ReLU x old = Ok y /\ length y = length x /\
    forall i, (i < length x)%nat -> length (nth i y []) = length (nth i x []) /\
    forall j, (j < length (nth i x []))%nat ->
      nth j (nth i y []) d =
      if f_lt O (nth j (nth i x []) d) (f_zero O) then f_zero O else nth j (nth i x []) d.
Proof. exact @Proof.Layers.relu_formula. Qed.
Print Assumptions layer_relu_formula.

Theorem layer_normalize_formula : forall F (O : fops F) (x : matrix F) old d,
  exists y, propagate O Normalize x old = Ok y /\ length y = length x /\
    forall i, (i < length x)%nat -> length (nth i y []) = length (nth i x []) /\
    forall j, (j < length (nth i x []))%nat ->
      nth j (nth i y []) d =
      f_mul O (nth j (nth i x []) d)
              (f_norm O (f_int O (lenZ (nth i x []))) (dot_product O (nth i x []) (nth i x []))).
Proof. exact @Proof.Layers.normalize_formula. Qed.
Print Assumptions layer_normalize_formula.

Theorem layer_softmax_formula : forall F (O : fops F) (x : matrix F) old d,
  exists y, propagate O Softmax x old = Ok y /\ length y = length x /\
    forall i, (i < length x)%nat -> length (nth i y []) = length (nth i x []) /\
    forall j, (j < length (nth i x []))%nat ->
      nth j (nth i y []) d =
      f_div O (f_expf O (nth j (nth i x []) d)) (fold_left (f_add O) (map (f_expf O) (nth i x [])) (f_zero O)).
Proof. exact @Proof.Layers.softmax_formula. Qed.
Print Assumptions layer_softmax_formula.

Theorem layer_log_softmax_formula : forall F (O : fops F) (x : matrix F) old d,
  exists y, propagate O LogSoftmax x old = Ok y /\ length y = length x /\
    forall i, (i < length x)%nat -> length (nth i y []) = length (nth i x []) /\
    forall j, (j < length (nth i x []))%nat ->
      nth j (nth i y []) d =
      f_sub O (nth j (nth i x []) d)
        (f_log O (fold_left (f_add O) (map (f_exp O) (nth i x [])) (f_zero O))).
Proof. exact @Proof.Layers.log_softmax_formula. Qed.
Print Assumptions layer_log_softmax_formula.

Theorem layers_in_order : forall F (O : fops F) ls (x z : matrix F) c, uniform c x -> 0 < c -> x <> [] ->
  (nnet_propagate O ls x = Ok z <-> in_order (fun l m => propagate O l m []) ls x z).
Proof. exact @Proof.Layers.layers_in_order. Qed.
Print Assumptions layers_in_order.

(** Two rows of two elements through a linear layer with three outputs, a ReLU,
    and a splice that reaches over both ends. *)
Example layers_case :
  nnet_propagate Proof.ZOps.zops [Linear [[1; 0; 2]; [0; 1; -3]] [5; 6; 7]; ReLU; Splice [-1; 1]] [[1; 2]; [3; 4]]
  = Ok [[6; 8; 3; 8; 10; 1]; [6; 8; 3; 8; 10; 1]].
Proof. exact (eq_refl _). Qed.

Example more_layers_case :
  nnet_propagate Proof.ZOps.zops [BatchNorm [2; 3] [1; -1]; Narrow 1 0] [[1; 2]; [3; 4]] = Ok [[7; 11]].
Proof. exact (eq_refl _). Qed.
