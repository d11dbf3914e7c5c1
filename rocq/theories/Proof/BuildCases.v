(** The project's tests of layers (test/nnet_test.cc), of collections
    (test/pool_test.cc), of transducers (test/fst_test.cc) and of configurations
    (test/configuration_test.cc) in the model. *)
From Coq Require Import ZArith String List Bool Floats.SpecFloat Lia.
From Verif.Base Require Import Prelude ZMap.
From Verif.Model Require Import Arith Util File Binary Vector Matrix Fbank Nnet Build Fst Configuration Pool Decoder Ieee Stt.
From Verif.Spec Require Import MatrixSpec AmSpec BuildSpec.
From Verif.Proof Require Import Matrix IeeeCases.
Import ListNotations.
Open Scope Z_scope.

(** Sums of products from the left. *)
Definition plain : fops float32 := ieee (mk_library (fun x => x) (fun x => x) (fun x => x) (fun _ _ => num 0 0)).
Definition in_order : library := mk_library (fun x => x) (fun x => x) (fun x => x)
  (fun a b => fold_left (f_add plain) (map2 (f_mul plain) a b) (f_zero plain)).
Definition ops := ieee in_order.

(** A constant with four digits behind the point. *)
Definition dec (n : Z) : float32 := Ieee.narrow (f64 (ratio64 n 10000)).

(** fabs(a - b) < 1e-3 (test/nnet_test.cc:23-25). *)
Definition check_eq (a b : float32) : bool :=
  SFltb (round_to 53 1024 (SFabs (SFsub 24 128 (fl_val a) (fl_val b)))) (ratio64 1 1000).
Fixpoint check_vector (v ref : list float32) : bool :=
  match v, ref with
  | [], [] => true
  | a :: v, b :: ref => check_eq a b && check_vector v ref
  | _, _ => false
  end.
Fixpoint check_rows (m : list (list float32)) (ref : list (list Z)) : bool :=
  match m, ref with
  | [], [] => true
  | v :: m, r :: ref => check_vector v (map dec r) && check_rows m ref
  | _, _ => false
  end.
Definition gives (l : layer float32) (x y : list (list Z)) : Prop :=
  exists m, propagate ops l (map (map dec) x) [] = Ok m /\ check_rows m y = true.

Definition w_rows : list (list float32) :=
  map (map dec) [[1000; 8000; 9000]; [4000; 2000; 7000]; [2000; 1000; 1000]; [4000; 3000; 2000]].
Definition w_data : list float32 := List.concat w_rows.
Definition b_data : list float32 := map dec [1000; -1000; 2000; -2000].
Definition w_view : view := mk_view 0 4 3 3.

Lemma w_pointer : sub_matrix_at (Some 0) 4 3 3 = Ok w_view.
Proof. reflexivity. Qed.

Lemma w_holds : holds w_data w_view w_rows.
Proof.
  split; [vm_compute; repeat split; congruence|]. split; [reflexivity|]. split; [repeat constructor|].
  intros r c (R & C). cbn [v_rows v_cols w_view] in R, C.
  assert (r = 0 \/ r = 1 \/ r = 2 \/ r = 3) as [-> | [-> | [-> | ->]]] by lia;
    (assert (c = 0 \/ c = 1 \/ c = 2) as [-> | [-> | ->]] by lia; reflexivity).
Qed.

Lemma w_fits : lenZ b_data = v_rows w_view /\ fits 4 (v_cols w_view) (v_rows w_view) StrideEqualNumCols /\ 4 * lenZ b_data <= int_max.
Proof. vm_compute. repeat split; congruence. Qed.

Lemma linear_test : exists y, check_rows y [[8600; 6300; 3400; 700]] = true /\
  map (fun row => map2 (f_add ops) (map (fun w => f_dot ops row w) w_rows) b_data) [map dec [3000; -1000; 9000]] = y.
Proof. eexists. split; [|reflexivity]. vm_compute. reflexivity. Qed.

Lemma layer_tests :
  gives (Splice [-2; 1]) [[10000; 10000]; [20000; 20000]; [30000; 30000]; [40000; 40000]]
    [[10000; 10000; 20000; 20000]; [10000; 10000; 30000; 30000]; [10000; 10000; 40000; 40000]; [20000; 20000; 40000; 40000]] /\
  gives ReLU [[3000; -1000; 9000; 2000]] [[3000; 0; 9000; 2000]] /\
  gives (BatchNorm (map dec [1000; 2000; 3000]) (map dec [1000; 2000; 3000])) [[1000; 1000; 1000]; [2000; 2000; 2000]]
    [[1100; 2200; 3300]; [1200; 2400; 3600]] /\
  gives (Narrow 1 2) [[1000; 8000; 9000]; [4000; 2000; 7000]; [2000; 1000; 1000]; [4000; 3000; 2000]; [5000; 6000; 7000]]
    [[4000; 2000; 7000]; [2000; 1000; 1000]] /\
  gives (Narrow 1 2) [[1000; 8000; 9000]; [4000; 2000; 7000]; [2000; 1000; 1000]]
    [[1000; 8000; 9000]; [4000; 2000; 7000]; [2000; 1000; 1000]].
Proof. repeat split; (eexists; split; [vm_compute; reflexivity|vm_compute; reflexivity]). Qed.

(** The squares of a normalised row add up to the number of its elements. *)
Lemma normalize_test : exists y, propagate ops Normalize [map dec [3000; -1000; 9000; 2000]] [] = Ok [y] /\
  SFltb (round_to 53 1024 (SFabs (SFsub 24 128 (fl_val (fold_left (f_add ops) (map2 (f_mul ops) y y) (f_zero ops))) (fl_val (num 4 0))))) (ratio64 1 10000) = true.
Proof. eexists. split; [vm_compute; reflexivity|vm_compute; reflexivity]. Qed.

(** test/pool_test.cc:52-77. *)
Definition freed (g : gcpool unit) (a : Z) : bool :=
  match zget (g_heap g) a with Some n => is_freed (n_state n) | None => false end.
Definition gc_test : res (list bool * bool) :=
  let al g p := galloc 4096 g p tt in
  '(g, a1) <- al ginit None ;; '(g, a2) <- al g (Some a1) ;; '(g, b1) <- al g None ;; '(g, c1) <- al g None ;;
  '(g, c2) <- al g (Some c1) ;; '(g, c3) <- al g (Some c2) ;; '(g, d1) <- al g (Some c2) ;;
  g <- gdealloc g a2 ;; g <- gc 4096 (fun h _ => Ok h) g [d1] ;;
  g' <- gdealloc g c2 ;;
  Ok (map (freed g) [a1; a2; b1; c3; c1; c2; d1], freed g' c2).
Lemma collection_test : gc_test = Ok ([true; true; true; true; false; false; false], true).
Proof. vm_compute. reflexivity. Qed.

(** test/data/testinput.fst and test/fst_test.cc:24-72. *)
Definition testinput : bytes :=
  [112; 107; 58; 58; 102; 115; 116; 95; 48; 0; 0; 0; 0; 0; 0; 0; 0; 0; 0; 0; 0; 0; 0; 0;
   0; 0; 0; 0; 0; 0; 0; 0; 84; 0; 0; 0; 3; 0; 0; 0; 3; 0; 0; 0; 0; 0; 0; 0;
   0; 0; 128; 127; 0; 0; 128; 127; 0; 0; 96; 64; 0; 0; 0; 0; 2; 0; 0; 0; 255; 255; 255; 255;
   1; 0; 0; 0; 1; 0; 0; 0; 1; 0; 0; 0; 0; 0; 0; 63; 1; 0; 0; 0; 2; 0; 0; 0;
   2; 0; 0; 0; 0; 0; 192; 63; 2; 0; 0; 0; 3; 0; 0; 0; 3; 0; 0; 0; 0; 0; 32; 64].
Lemma graph_test : exists g f, fst_read (open testinput) = Ok (Some g, f) /\ start_state g = 0 /\
  map (fst_final g) [0; 1; 2] = [Ok 2139095040; Ok 2139095040; Ok 1080033280] /\
  map (iterate_arcs g) [0; 1; 2] =
    [Ok [mk_arc 1 1 1 1056964608; mk_arc 1 2 2 1069547520]; Ok [mk_arc 2 3 3 1075838976]; Ok []].
Proof. eexists. eexists. split; [vm_compute; reflexivity|]. repeat split; vm_compute; reflexivity. Qed.

(** test/data/test.conf and test/configuration_test.cc:11-36. *)
Definition test_conf : bytes :=
  lit "# Test file for Configuration class" ++ [13; 10] ++ lit "TestConf = test_conf.txt" ++ [13; 10] ++ lit "int_val = 1" ++ [13; 10].
Lemma configuration_test : exists c, conf_read conf_empty (lit "test/data/test.conf") test_conf = Ok (c, true) /\
  get_path c (lit "TestConf") [] = Ok (lit "test/data/test_conf.txt") /\ get_integer_or_else c (lit "int_val") 233 = Ok 1.
Proof. eexists. split; [vm_compute; reflexivity|]. split; vm_compute; reflexivity. Qed.
