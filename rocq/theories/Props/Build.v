(** Property C108: layers built in memory. *)
From Coq Require Import ZArith String List.
From Verif.Base Require Import Prelude.
From Verif.Model Require Import Arith File Binary Vector Matrix Fbank Nnet Build Fst Configuration Stt.
From Verif.Spec Require Import MatrixSpec AmSpec BuildSpec.
From Verif.Proof Require Build BuildCases.
Import ListNotations.
Open Scope Z_scope.

Theorem linear_layer_built : forall (F : Type) (O : fops F) zero junk b v rows bias, holds b v rows ->
  lenZ bias = v_rows v -> fits 4 (v_cols v) (v_rows v) StrideEqualNumCols -> 4 * lenZ bias <= int_max ->
  exists m cols, linear_new zero 4 junk b v bias = Ok (m, bias) /\ owns m cols /\
    forall x old, x <> [] -> uniform (v_cols v) x ->
      propagate O (Linear cols bias) x old =
        Ok (map (fun row => map2 (f_add O) (map (fun w => f_dot O row w) rows) bias) x).
Proof. exact Proof.Build.built_runs. Qed.
Print Assumptions linear_layer_built.

Example linear_layer_built_case :
  sub_matrix_at (Some 0) 4 3 3 = Ok BuildCases.w_view /\
  holds BuildCases.w_data BuildCases.w_view BuildCases.w_rows /\
  lenZ BuildCases.b_data = v_rows BuildCases.w_view /\
  fits 4 (v_cols BuildCases.w_view) (v_rows BuildCases.w_view) StrideEqualNumCols /\ 4 * lenZ BuildCases.b_data <= int_max /\
  exists y, BuildCases.check_rows y [[8600; 6300; 3400; 700]] = true /\
    map (fun row => map2 (f_add BuildCases.ops) (map (fun w => f_dot BuildCases.ops row w) BuildCases.w_rows) BuildCases.b_data)
      [map BuildCases.dec [3000; -1000; 9000]] = y.
Proof. exact (conj BuildCases.w_pointer (conj BuildCases.w_holds (conj (proj1 BuildCases.w_fits) (conj (proj1 (proj2 BuildCases.w_fits)) (conj (proj2 (proj2 BuildCases.w_fits)) BuildCases.linear_test))))). Qed.
Print Assumptions linear_layer_built_case.

Theorem linear_layer_refused : forall (A : Type) (zero : A) junk b v bias, lenZ bias <> v_rows v ->
  linear_new zero 4 junk b v bias = Fault Assert.
Proof. exact Proof.Build.linear_refused. Qed.
Print Assumptions linear_layer_refused.

Example linear_layer_refused_case : linear_new 0 4 (fun _ => 7) [1; 2; 3; 4] (mk_view 0 2 2 2) [1; 2; 3] = Fault Assert.
Proof. exact (Proof.Build.linear_refused Z 0 (fun _ => 7) [1; 2; 3; 4] (mk_view 0 2 2 2) [1; 2; 3] ltac:(discriminate)). Qed.
Print Assumptions linear_layer_refused_case.

Theorem batch_norm_built : forall (F : Type) (O : fops F) scale offset,
  0 < lenZ scale -> 4 * lenZ scale <= int_max -> 4 * lenZ offset <= int_max ->
  batch_norm_new 4 scale offset = Ok (scale, offset) /\
  forall x old, x <> [] -> uniform (lenZ scale) x ->
    propagate O (BatchNorm scale offset) x old =
      if lenZ offset =? lenZ scale
      then Ok (map (fun row => map2 (f_add O) (map2 (f_mul O) row scale) offset) x)
      else Fault Assert.
Proof. exact Proof.Build.batch_norm_built. Qed.
Print Assumptions batch_norm_built.

Example layer_tests_case :
  BuildCases.gives (Splice [-2; 1]) [[10000; 10000]; [20000; 20000]; [30000; 30000]; [40000; 40000]]
    [[10000; 10000; 20000; 20000]; [10000; 10000; 30000; 30000]; [10000; 10000; 40000; 40000]; [20000; 20000; 40000; 40000]] /\
  BuildCases.gives ReLU [[3000; -1000; 9000; 2000]] [[3000; 0; 9000; 2000]] /\
  BuildCases.gives (BatchNorm (map BuildCases.dec [1000; 2000; 3000]) (map BuildCases.dec [1000; 2000; 3000]))
    [[1000; 1000; 1000]; [2000; 2000; 2000]] [[1100; 2200; 3300]; [1200; 2400; 3600]] /\
  BuildCases.gives (Narrow 1 2) [[1000; 8000; 9000]; [4000; 2000; 7000]; [2000; 1000; 1000]; [4000; 3000; 2000]; [5000; 6000; 7000]]
    [[4000; 2000; 7000]; [2000; 1000; 1000]] /\
  BuildCases.gives (Narrow 1 2) [[1000; 8000; 9000]; [4000; 2000; 7000]; [2000; 1000; 1000]]
    [[1000; 8000; 9000]; [4000; 2000; 7000]; [2000; 1000; 1000]].
Proof. exact BuildCases.layer_tests. Qed.
Print Assumptions layer_tests_case.

Theorem pointer_matrix : forall (A : Type) (b : list A) off rows cols stride,
  0 <= off -> 0 < rows -> 0 < cols <= stride -> (rows - 1) * stride + cols <= int_max ->
  off + (rows - 1) * stride + cols <= lenZ b ->
  exists v, sub_matrix_at (Some off) rows cols stride = Ok v /\ v_rows v = rows /\ v_cols v = cols /\
    inside v (lenZ b) /\ forall r c, 0 <= r < rows -> 0 <= c < cols -> mget b v r c = getZ b (off + r * stride + c).
Proof. exact Proof.Build.pointer_view. Qed.
Print Assumptions pointer_matrix.

Theorem pointer_matrix_checked : forall rows cols stride,
  (stride < cols -> forall off, sub_matrix_at (Some off) rows cols stride = Fault Assert) /\
  (rows * cols <> 0 -> Z.abs (rows * cols) <= int_max -> sub_matrix_at None rows cols stride = Fault Assert) /\
  (rows * cols = 0 -> sub_matrix_at None rows cols stride = Ok no_view).
Proof. exact Proof.Build.pointer_refused. Qed.
Print Assumptions pointer_matrix_checked.

Example pointer_matrix_case : exists v, sub_matrix_at (Some 1) 2 3 4 = Ok v /\ v_rows v = 2 /\ v_cols v = 3 /\
  mget [0; 1; 2; 3; 4; 5; 6; 7] v 1 2 = Ok 7 /\ sub_matrix_at (Some 1) 2 5 4 = Fault Assert.
Proof. exact (ex_intro _ (mk_view 1 2 3 4) (conj eq_refl (conj eq_refl (conj eq_refl (conj eq_refl eq_refl))))). Qed.
Print Assumptions pointer_matrix_case.

Theorem matrix_scaled : forall (A : Type) (mul : A -> A -> A) b v alpha, inside v (lenZ b) ->
  exists b', mat_scale mul b v alpha = Ok b' /\ only v b b' /\
    forall r c x, index v r c -> mget b v r c = Ok x -> mget b' v r c = Ok (mul x alpha).
Proof. exact Proof.Build.scaled. Qed.
Print Assumptions matrix_scaled.

Example matrix_scaled_case : mat_scale Z.mul [0; 1; 2; 3; 4; 5; 6; 7] (mk_view 1 2 2 4) 10 = Ok [0; 10; 20; 3; 4; 50; 60; 7].
Proof. exact eq_refl. Qed.
Print Assumptions matrix_scaled_case.

Example collection_test_case : BuildCases.gc_test = Ok ([true; true; true; true; false; false; false], true).
Proof. exact BuildCases.collection_test. Qed.
Print Assumptions collection_test_case.

Example graph_test_case : exists g f, fst_read (open BuildCases.testinput) = Ok (Some g, f) /\ start_state g = 0 /\
  map (fst_final g) [0; 1; 2] = [Ok 2139095040; Ok 2139095040; Ok 1080033280] /\
  map (iterate_arcs g) [0; 1; 2] =
    [Ok [mk_arc 1 1 1 1056964608; mk_arc 1 2 2 1069547520]; Ok [mk_arc 2 3 3 1075838976]; Ok []].
Proof. exact BuildCases.graph_test. Qed.
Print Assumptions graph_test_case.

Example configuration_test_case :
  exists c, conf_read conf_empty (lit "test/data/test.conf") BuildCases.test_conf = Ok (c, true) /\
    get_path c (lit "TestConf") [] = Ok (lit "test/data/test_conf.txt") /\ get_integer_or_else c (lit "int_val") 233 = Ok 1.
Proof. exact BuildCases.configuration_test. Qed.
Print Assumptions configuration_test_case.
