(** Products of 8-bit matrices (C91). *)
From Coq Require Import ZArith Reals List.
From Verif.Base Require Import Prelude.
From Verif.Model Require Import Arith Matrix Quantize Exact Gemm.
From Verif.Spec Require Import MatrixSpec QuantizeSpec GemmSpec.
From Verif.Proof Require GemmReal GemmOver GemmCases.
Import ListNotations.
Open Scope R_scope.

(** Missing from the claim: matrices with gaps between their rows, factors that
    are a single number, and elements so close to one another that the sums do
    not fit into 32 bits; all are refuted below. *)
Theorem quantised_product_partial : forall junk scratch a va b vb da db c vc fa fb la ha lb hb Ma Mb,
  inside va (lenZ a) -> inside vb (lenZ b) -> inside vc (lenZ c) -> multiplies va vb vc ->
  receives va da -> receives vb db ->
  (forall x, occurs a va x -> x <= float_max) -> (forall x, occurs b vb x -> x <= float_max) ->
  extremes a va la ha -> extremes b vb lb hb ->
  Rabs la <= IZR Ma * (ha - la) -> Rabs lb <= IZR Mb * (hb - lb) -> (0 <= Ma)%Z -> (0 <= Mb)%Z ->
  (v_cols va * (255 + 255 * Ma) * (255 + 255 * Mb) <= int_max)%Z ->
  (forall i k, index va i k -> mget a va i k = Ok (fa i k)) ->
  (forall k j, index vb k j -> mget b vb k j = Ok (fb k j)) ->
  exists ma pa mb pb qa qb s c1,
    quantize rops rwide rround junk a va da = Ok (ma, pa) /\ quantize rops rwide rround junk b vb db = Ok (mb, pb) /\
    m_block ma = Some qa /\ m_block mb = Some qb /\
    mat_mat_u8 rops junk scratch qa (m_view ma) pa qb (m_view mb) pb c vc = Ok (s, c1) /\ only vc c c1 /\
    forall i j, index vc i j -> exists x, mget c1 vc i j = Ok x /\
      Rabs (x - exact_product fa fb (Z.to_nat (v_cols va)) i j) <=
      allowed_error fa fb (step la ha) (step lb hb) (Z.to_nat (v_cols va)) i j.
Proof. exact Proof.GemmReal.quantised_product. Qed.
Print Assumptions quantised_product_partial.

Example quantised_product_case : let a := [-1; 3] in let b := [-1; 3] in
  let row := mk_view 0 1 2 2 in let column := mk_view 0 2 1 1 in let one := mk_view 0 1 1 1 in
  inside row (lenZ a) /\ inside column (lenZ b) /\ inside one (lenZ [0]) /\ multiplies row column one /\
  receives row (mk_mat None no_view) /\ receives column (mk_mat None no_view) /\
  (forall x, occurs a row x -> x <= float_max) /\ (forall x, occurs b column x -> x <= float_max) /\
  extremes a row (-1) 3 /\ extremes b column (-1) 3 /\
  Rabs (-1) <= IZR 1 * (3 - -1) /\ (v_cols row * (255 + 255 * 1) * (255 + 255 * 1) <= int_max)%Z /\
  exact_product (fun _ k => if (k =? 0)%Z then -1 else 3) (fun k _ => if (k =? 0)%Z then -1 else 3) 2 0 0 = 10 /\
  allowed_error (fun _ k => if (k =? 0)%Z then -1 else 3) (fun k _ => if (k =? 0)%Z then -1 else 3)
    (step (-1) 3) (step (-1) 3) 2 0 0 < 7 / 100.
Proof. exact Proof.GemmCases.real_case. Qed.
Print Assumptions quantised_product_case.

Theorem quantised_product_close_refuted : forall junk scratch a va b vb da db c vc la ha lb hb,
  inside va (lenZ a) -> inside vb (lenZ b) -> inside vc (lenZ c) -> multiplies va vb vc ->
  receives va da -> receives vb db ->
  (forall x, occurs a va x -> x <= float_max) -> (forall x, occurs b vb x -> x <= float_max) ->
  spread a va -> spread b vb -> extremes a va la ha -> extremes b vb lb hb ->
  step la ha <= la -> step lb hb <= lb ->
  IZR (2 ^ 31) * (step la ha * step lb hb) <= IZR (v_cols va) * ((la - step la ha / 2) * (lb - step lb hb / 2)) ->
  exists ma pa mb pb qa qb,
    quantize rops rwide rround junk a va da = Ok (ma, pa) /\ quantize rops rwide rround junk b vb db = Ok (mb, pb) /\
    m_block ma = Some qa /\ m_block mb = Some qb /\
    mat_mat_u8 rops junk scratch qa (m_view ma) pa qb (m_view mb) pb c vc = Fault Undef.
Proof. exact Proof.GemmCases.quantised_overflow. Qed.
Print Assumptions quantised_product_close_refuted.

Example quantised_product_close_case : let e := / IZR (2 ^ 12) in let a := [3 / 2; 3 / 2 + e] in
  let row := mk_view 0 1 2 2 in let column := mk_view 0 2 1 1 in let one := mk_view 0 1 1 1 in
  inside row (lenZ a) /\ inside column (lenZ a) /\ inside one (lenZ [0]) /\ multiplies row column one /\
  receives row (mk_mat None no_view) /\ receives column (mk_mat None no_view) /\
  (forall x, occurs a row x -> x <= float_max) /\ (forall x, occurs a column x -> x <= float_max) /\
  spread a row /\ spread a column /\ extremes a row (3 / 2) (3 / 2 + e) /\ extremes a column (3 / 2) (3 / 2 + e) /\
  step (3 / 2) (3 / 2 + e) <= 3 / 2 /\
  IZR (2 ^ 31) * (step (3 / 2) (3 / 2 + e) * step (3 / 2) (3 / 2 + e)) <=
    IZR (v_cols row) * ((3 / 2 - step (3 / 2) (3 / 2 + e) / 2) * (3 / 2 - step (3 / 2) (3 / 2 + e) / 2)).
Proof. exact Proof.GemmCases.overflow_case. Qed.
Print Assumptions quantised_product_close_case.

Open Scope Z_scope.

(** In any arithmetic: the sums themselves are exact. *)
Theorem integer_product_exact : forall F (O : fops F) junk scratch a va pa b vb pb c vc (fa fb : Z -> Z -> Z),
  inside va (lenZ a) -> inside vb (lenZ b) -> inside vc (lenZ c) -> multiplies va vb vc ->
  (forall r k, index va r k -> mget a va r k = Ok (fa r k) /\ 0 <= fa r k <= 255) ->
  (forall k r, index vb k r -> mget b vb k r = Ok (fb k r) /\ 0 <= fb k r <= 255) ->
  v_cols va * (255 + Z.abs (p_zero pa)) * (255 + Z.abs (p_zero pb)) <= int_max ->
  exists s c1, mat_mat_u8 O junk scratch a va pa b vb pb c vc = Ok (s, c1) /\ only vc c c1 /\
    forall i j, index vc i j ->
      mget c1 vc i j = Ok (f_mul O
        (f_int O (sum_of Z.add (fun k => (fa i k - p_zero pa) * (fb k j - p_zero pb)) 0 (Z.to_nat (v_cols va))))
        (f_mul O (p_scale pa) (p_scale pb))).
Proof. exact Proof.GemmCases.product_exact. Qed.
Print Assumptions integer_product_exact.

Example integer_product_case : let square := mk_view 0 2 2 2 in let q := [10; 20; 30; 40] in
  let f r c := nth (Z.to_nat (r * 2 + c)) q 0 in
  inside square (lenZ q) /\ multiplies square square square /\
  (forall r k, index square r k -> mget q square r k = Ok (f r k) /\ 0 <= f r k <= 255) /\
  v_cols square * (255 + Z.abs 15) * (255 + Z.abs 25) <= int_max /\
  forall F (O : fops F) junk (sa sb x : F),
    let w n := f_mul O (f_int O n) (f_mul O sa sb) in
    mat_mat_u8 O junk [] q square (mk_params sa 15) q square (mk_params sb 25) [x; x; x; x] square =
      Ok ([100; 100; -100; 300], [w 100; w 100; w (-100); w 300]).
Proof. exact Proof.GemmCases.exact_case. Qed.
Print Assumptions integer_product_case.

Theorem integer_product_outside_refuted : forall F (O : fops F) junk scratch a va pa b vb pb c vc (fa fb : Z -> Z -> Z) i j,
  inside va (lenZ a) -> inside vb (lenZ b) -> multiplies va vb vc ->
  (forall r k, index va r k -> mget a va r k = Ok (fa r k)) ->
  (forall k r, index vb k r -> mget b vb k r = Ok (fb k r)) ->
  index vc i j ->
  ~ (- 2 ^ 31 <= sum_of Z.add (fun k => (fa i k - p_zero pa) * (fb k j - p_zero pb)) 0 (Z.to_nat (v_cols va)) < 2 ^ 31) ->
  mat_mat_u8 O junk scratch a va pa b vb pb c vc = Fault Undef.
Proof. exact Proof.GemmCases.product_outside. Qed.
Print Assumptions integer_product_outside_refuted.

Example integer_product_outside_case : let q := [0; 0] in
  let row := mk_view 0 1 2 2 in let column := mk_view 0 2 1 1 in let one := mk_view 0 1 1 1 in
  inside row (lenZ q) /\ inside column (lenZ q) /\ multiplies row column one /\ index one 0 0 /\
  ~ (- 2 ^ 31 <= sum_of Z.add (fun k => (0 - -40000) * (0 - -40000)) 0 (Z.to_nat (v_cols row)) < 2 ^ 31).
Proof. exact Proof.GemmCases.outside_case. Qed.
Print Assumptions integer_product_outside_case.

Theorem integer_product_single_refuted : forall F (O : fops F) junk scratch a va pa b vb pb c vc,
  v_rows va * v_cols va = 1 \/ (v_rows vb * v_cols vb = 1 /\ -2147483648 <= v_cols va * v_rows va <= int_max) ->
  mat_mat_u8 O junk scratch a va pa b vb pb c vc = Fault Assert.
Proof. exact @Proof.GemmOver.product_single. Qed.
Print Assumptions integer_product_single_refuted.

Theorem integer_product_gaps_refuted : forall F (O : fops F) junk (sa sb x : F),
  let wide := mk_view 0 2 2 16 in let square := mk_view 0 2 2 2 in
  let a := [10; 20; 9; 9; 9; 9; 9; 9; 9; 9; 9; 9; 9; 9; 9; 9; 30; 40] in let b := [10; 20; 30; 40] in
  inside wide (lenZ a) /\ inside square (lenZ b) /\ v_rows wide * v_cols wide * 4 + 32 <= int_max /\
  mget a wide 1 0 = Ok 30 /\ mget a wide 1 1 = Ok 40 /\
  exists s c1, mat_mat_u8 O junk [] a wide (mk_params sa 15) b square (mk_params sb 25) [x; x; x; x] square = Ok (s, c1) /\
    mget c1 square 1 0 = Ok (f_mul O (f_int O 60) (f_mul O sa sb)) /\
    (30 - 15) * (10 - 25) + (40 - 15) * (30 - 25) = -100.
Proof. exact Proof.GemmCases.gaps_product. Qed.
Print Assumptions integer_product_gaps_refuted.
