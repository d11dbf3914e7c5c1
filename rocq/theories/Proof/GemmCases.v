(** Products of 8-bit matrices: cases and failures. *)
From Coq Require Import ZArith Reals List Bool Lia Lra.
From Verif.Base Require Import Prelude Lemmas.
From Verif.Model Require Import Arith Vector Matrix Quantize Exact Gemm.
From Verif.Spec Require Import MatrixSpec QuantizeSpec GemmSpec.
From Verif.Proof Require Import Loop Matrix Quantize QuantizeCases Gemm GemmReal GemmOver.
Import ListNotations.
Open Scope R_scope.

Lemma product_exact F (O : fops F) junk scratch a va pa b vb pb c vc (fa fb : Z -> Z -> Z) :
  inside va (lenZ a) -> inside vb (lenZ b) -> inside vc (lenZ c) -> multiplies va vb vc ->
  (forall r k, index va r k -> mget a va r k = Ok (fa r k) /\ (0 <= fa r k <= 255)%Z) ->
  (forall k r, index vb k r -> mget b vb k r = Ok (fb k r) /\ (0 <= fb k r <= 255)%Z) ->
  (v_cols va * (255 + Z.abs (p_zero pa)) * (255 + Z.abs (p_zero pb)) <= int_max)%Z ->
  exists s c1, mat_mat_u8 O junk scratch a va pa b vb pb c vc = Ok (s, c1) /\ only vc c c1 /\
    forall i j, index vc i j ->
      mget c1 vc i j = Ok (f_mul O
        (f_int O (sum_of Z.add (fun k => (fa i k - p_zero pa) * (fb k j - p_zero pb))%Z 0%Z (Z.to_nat (v_cols va))))
        (f_mul O (p_scale pa) (p_scale pb))).
Proof. intros Ia Ib Ic (? & ? & ? & ? & ? & ? & ? & ? & ?). now apply product_u8_ok. Qed.

Lemma product_outside F (O : fops F) junk scratch a va pa b vb pb c vc (fa fb : Z -> Z -> Z) i j :
  inside va (lenZ a) -> inside vb (lenZ b) -> multiplies va vb vc ->
  (forall r k, index va r k -> mget a va r k = Ok (fa r k)) ->
  (forall k r, index vb k r -> mget b vb k r = Ok (fb k r)) ->
  index vc i j ->
  ~ (- 2 ^ 31 <= sum_of Z.add (fun k => (fa i k - p_zero pa) * (fb k j - p_zero pb))%Z 0%Z (Z.to_nat (v_cols va)) < 2 ^ 31)%Z ->
  mat_mat_u8 O junk scratch a va pa b vb pb c vc = Fault Undef.
Proof.
  intros Ia Ib (? & ? & ? & ? & ? & ? & ? & ? & ?) Fa Fb I N.
  apply (product_overflow O junk scratch a va pa b vb pb c vc fa fb) with (i := i) (j := j); try assumption.
  destruct (in_int32 _) eqn:E; [|reflexivity]. apply in_int32_iff in E. lia.
Qed.

(** Close elements, so that the zero points are far from zero. *)
Lemma quantised_overflow junk scratch a va b vb da db c vc la ha lb hb :
  inside va (lenZ a) -> inside vb (lenZ b) -> inside vc (lenZ c) -> multiplies va vb vc ->
  receives va da -> receives vb db ->
  (forall x, occurs a va x -> x <= float_max) -> (forall x, occurs b vb x -> x <= float_max) ->
  spread a va -> spread b vb -> extremes a va la ha -> extremes b vb lb hb ->
  step la ha <= la -> step lb hb <= lb ->
  IZR (2 ^ 31) * (step la ha * step lb hb) <= IZR (v_cols va) * ((la - step la ha / 2) * (lb - step lb hb / 2)) ->
  exists ma pa mb pb qa qb,
    quantize rops rwide rround junk a va da = Ok (ma, pa) /\ quantize rops rwide rround junk b vb db = Ok (mb, pb) /\
    m_block ma = Some qa /\ m_block mb = Some qb /\
    mat_mat_u8 rops junk scratch qa (m_view ma) pa qb (m_view mb) pb c vc = Fault Undef.
Proof.
  intros Ia Ib Ic (Sa & Sb & Sc & D1 & D2 & D3 & Na & Nb & Nc) Ra Rb Ua Ub Pa Pb Xa Xb La Lb Big.
  destruct (quantize_ok junk a va da Ia Sa Ra Ua Pa) as (ma & pa & Ea & (qa & Ba & Ja) & Ra1 & Ca1 & Sa1 & Qa & Za & Va).
  destruct (quantize_ok junk b vb db Ib Sb Rb Ub Pb) as (mb & pb & Eb & (qb & Bb & Jb) & Rb1 & Cb1 & Sb1 & Qb & Zb & Vb).
  destruct (Za la ha Xa) as (Ta & _). destruct (Zb lb hb Xb) as (Tb & _).
  assert (Ha : p_scale pa = step la ha) by (unfold step; lra).
  assert (Hb : p_scale pb = step lb hb) by (unfold step; lra).
  rewrite Ha in *. rewrite Hb in *.
  pose (ga i k := match mget qa (m_view ma) i k with Ok q => q | Fault _ => 0%Z end).
  pose (gb i k := match mget qb (m_view mb) i k with Ok q => q | Fault _ => 0%Z end).
  set (sa := step la ha) in *. set (sb := step lb hb) in *.
  assert (Ga : forall i k, index va i k -> mget qa (m_view ma) i k = Ok (ga i k) /\ la - sa / 2 <= sa * IZR (ga i k - p_zero pa)).
  { intros i k I. destruct (mget_total va a i k Ia I) as (x & Ex).
    destruct (Va i k _ I Ex) as (q & E & B & C). unfold element in E. rewrite Ba in E.
    unfold ga. rewrite E. split; [reflexivity|]. destruct Xa as (_ & _ & X).
    assert (H : occurs a va x) by (exists i, k; auto). specialize (X x H). pose proof (Rle_abs (x - sa * IZR (q - p_zero pa))). lra. }
  assert (Gb : forall i k, index vb i k -> mget qb (m_view mb) i k = Ok (gb i k) /\ lb - sb / 2 <= sb * IZR (gb i k - p_zero pb)).
  { intros i k I. destruct (mget_total vb b i k Ib I) as (x & Ex).
    destruct (Vb i k _ I Ex) as (q & E & B & C). unfold element in E. rewrite Bb in E.
    unfold gb. rewrite E. split; [reflexivity|]. destruct Xb as (_ & _ & X).
    assert (H : occurs b vb x) by (exists i, k; auto). specialize (X x H). pose proof (Rle_abs (x - sb * IZR (q - p_zero pb))). lra. }
  exists ma, pa, mb, pb, qa, qb. do 4 (split; [assumption|]).
  assert (I0 : index vc 0 0) by (unfold inside in Ic; unfold index; lia).
  apply (product_overflow rops junk scratch qa (m_view ma) pa qb (m_view mb) pb c vc ga gb) with (i := 0%Z) (j := 0%Z);
    try assumption; try (rewrite ?Ra1, ?Ca1, ?Sa1, ?Rb1, ?Cb1, ?Sb1; assumption); try (rewrite ?Ra1, ?Ca1, ?Sa1, ?Rb1, ?Cb1, ?Sb1; reflexivity).
  - intros r k I. apply Ga. unfold index in *. rewrite <- Ra1, <- Ca1. exact I.
  - intros r k I. apply Gb. unfold index in *. rewrite <- Rb1, <- Cb1. exact I.
  - rewrite Ca1. set (S := sum_of _ _ _ _).
    assert (L : IZR (v_cols va) * ((la - sa / 2) * (lb - sb / 2)) <= sa * sb * IZR S).
    { unfold S. rewrite sum_IZR. rewrite <- (Z2Nat.id (v_cols va)) at 1 by (unfold inside in Ia; lia).
      assert (Hk : forall k, (0 <= k < Z.of_nat (Z.to_nat (v_cols va)))%Z ->
        (la - sa / 2) * (lb - sb / 2) <= sa * sb * IZR ((ga 0%Z k - p_zero pa) * (gb k 0%Z - p_zero pb))).
      { intros k K. unfold index, inside in *. destruct (Ga 0%Z k) as [_ A1]; [lia|]. destruct (Gb k 0%Z) as [_ B1]; [lia|].
        rewrite mult_IZR. 
        replace (sa * sb * (IZR (ga 0%Z k - p_zero pa) * IZR (gb k 0%Z - p_zero pb)))
          with ((sa * IZR (ga 0%Z k - p_zero pa)) * (sb * IZR (gb k 0%Z - p_zero pb))) by ring.
        apply Rmult_le_compat; try assumption; lra. }
      revert Hk. generalize (Z.to_nat (v_cols va)). clear. intros n. induction n as [|n IH]; intros Hk; cbn [sum_of].
      - cbn. lra.
      - rewrite Nat2Z.inj_succ. unfold Z.succ. rewrite plus_IZR. specialize (IH (fun k K => Hk k ltac:(lia))).
        specialize (Hk (Z.of_nat n) ltac:(lia)). lra. }
    destruct (in_int32 S) eqn:E; [|reflexivity]. exfalso. apply in_int32_iff in E.
    assert (P : 0 < sa * sb) by now apply Rmult_lt_0_compat.
    assert (Q : IZR (2 ^ 31) <= IZR S).
    { apply (Rmult_le_reg_l (sa * sb)); [exact P|]. lra. }
    apply le_IZR in Q. lia.
Qed.

(** Rows and columns of two. *)
Definition row : view := mk_view 0 1 2 2.
Definition column : view := mk_view 0 2 1 1.
Definition one : view := mk_view 0 1 1 1.

Lemma multiplies_case : multiplies row column one.
Proof. unfold multiplies, int_max. cbn. lia. Qed.

Lemma real_case : let a := [-1; 3] in let b := [-1; 3] in
  inside row (lenZ a) /\ inside column (lenZ b) /\ inside one (lenZ [0]) /\ multiplies row column one /\
  receives row (mk_mat None no_view) /\ receives column (mk_mat None no_view) /\
  (forall x, occurs a row x -> x <= float_max) /\ (forall x, occurs b column x -> x <= float_max) /\
  extremes a row (-1) 3 /\ extremes b column (-1) 3 /\
  Rabs (-1) <= IZR 1 * (3 - -1) /\ (v_cols row * (255 + 255 * 1) * (255 + 255 * 1) <= int_max)%Z /\
  exact_product (fun _ k => if (k =? 0)%Z then -1 else 3) (fun k _ => if (k =? 0)%Z then -1 else 3) 2 0 0 = 10 /\
  allowed_error (fun _ k => if (k =? 0)%Z then -1 else 3) (fun k _ => if (k =? 0)%Z then -1 else 3) (step (-1) 3) (step (-1) 3) 2 0 0 < 7 / 100.
Proof.
  intros a b. pose proof max_big as M. pose proof min_small as Mn.
  assert (St : step (-1) 3 = 4 / 255) by (unfold step; rewrite Rmax_left by lra; lra).
  unfold a, b. split; [unfold inside, int_max; cbn; lia|]. split; [unfold inside, int_max; cbn; lia|].
  split; [unfold inside, int_max; cbn; lia|]. split; [apply multiplies_case|].
  split; [right; split; [now right|]; split; [left; cbn; lia|]; unfold fits, padded, int_max; cbn; lia|].
  split; [right; split; [now right|]; split; [left; cbn; lia|]; unfold fits, padded, int_max; cbn; lia|].
  split; [intros x [-> | ->]%occurs2; lra|]. split; [intros x [-> | ->]%occurs_column; lra|].
  split; [split; [apply occurs2; auto|split; [apply occurs2; auto|intros x [-> | ->]%occurs2; lra]]|].
  split; [split; [apply occurs_column; auto|split; [apply occurs_column; auto|intros x [-> | ->]%occurs_column; lra]]|].
  split; [rewrite Rabs_left by lra; lra|]. split; [unfold int_max; cbn; lia|]. split.
  - unfold exact_product. cbn. lra.
  - rewrite St. unfold allowed_error. cbn -[Rabs]. rewrite (Rabs_left (-1)), (Rabs_right 3) by lra. lra.
Qed.

(** One and a half and its neighbours. *)
Lemma overflow_case : let e := / IZR (2 ^ 12) in let a := [3 / 2; 3 / 2 + e] in
  inside row (lenZ a) /\ inside column (lenZ a) /\ inside one (lenZ [0]) /\ multiplies row column one /\
  receives row (mk_mat None no_view) /\ receives column (mk_mat None no_view) /\
  (forall x, occurs a row x -> x <= float_max) /\ (forall x, occurs a column x -> x <= float_max) /\
  spread a row /\ spread a column /\ extremes a row (3 / 2) (3 / 2 + e) /\ extremes a column (3 / 2) (3 / 2 + e) /\
  step (3 / 2) (3 / 2 + e) <= 3 / 2 /\
  IZR (2 ^ 31) * (step (3 / 2) (3 / 2 + e) * step (3 / 2) (3 / 2 + e)) <=
    IZR (v_cols row) * ((3 / 2 - step (3 / 2) (3 / 2 + e) / 2) * (3 / 2 - step (3 / 2) (3 / 2 + e) / 2)).
Proof.
  intros e a. pose proof max_big as M. pose proof min_small as Mn.
  assert (Ee : e * 4096 = 1) by (unfold e; change (2 ^ 12)%Z with 4096%Z; field).
  assert (St : step (3 / 2) (3 / 2 + e) = e / 255) by (unfold step; rewrite Rmax_left by lra; lra).
  clearbody e. unfold a. split; [unfold inside, int_max; cbn; lia|]. split; [unfold inside, int_max; cbn; lia|].
  split; [unfold inside, int_max; cbn; lia|]. split; [apply multiplies_case|].
  split; [right; split; [now right|]; split; [left; cbn; lia|]; unfold fits, padded, int_max; cbn; lia|].
  split; [right; split; [now right|]; split; [left; cbn; lia|]; unfold fits, padded, int_max; cbn; lia|].
  split; [intros x [-> | ->]%occurs2; lra|]. split; [intros x [-> | ->]%occurs_column; lra|].
  split; [exists (3 / 2), (3 / 2 + e); split; [apply occurs2; auto|]; split; [apply occurs2; auto|]; change (2 ^ 31)%Z with 2147483648%Z; lra|].
  split; [exists (3 / 2), (3 / 2 + e); split; [apply occurs_column; auto|]; split; [apply occurs_column; auto|]; change (2 ^ 31)%Z with 2147483648%Z; lra|].
  split; [split; [apply occurs2; auto|split; [apply occurs2; auto|intros x [-> | ->]%occurs2; lra]]|].
  split; [split; [apply occurs_column; auto|split; [apply occurs_column; auto|intros x [-> | ->]%occurs_column; lra]]|].
  rewrite St. split; [lra|]. change (2 ^ 31)%Z with 2147483648%Z. cbn [row v_cols].
  assert (e = / 4096) as -> by lra. lra.
Qed.

(** Whole numbers. *)
Open Scope Z_scope.
Definition square : view := mk_view 0 2 2 2.
Definition four (l : list Z) (r c : Z) : Z := nth (Z.to_nat (r * 2 + c)) l 0.

Lemma square_reads x y z w : 0 <= x <= 255 -> 0 <= y <= 255 -> 0 <= z <= 255 -> 0 <= w <= 255 ->
  forall r k, index square r k -> mget [x; y; z; w] square r k = Ok (four [x; y; z; w] r k) /\ 0 <= four [x; y; z; w] r k <= 255.
Proof.
  intros X Y U W r k [R K]. cbn in R, K.
  assert (r = 0 \/ r = 1) as [-> | ->] by lia; assert (k = 0 \/ k = 1) as [-> | ->] by lia; (split; [reflexivity|assumption]).
Qed.

Lemma exact_case :
  inside square (lenZ [10; 20; 30; 40]) /\ multiplies square square square /\
  (forall r k, index square r k -> mget [10; 20; 30; 40] square r k = Ok (four [10; 20; 30; 40] r k) /\ 0 <= four [10; 20; 30; 40] r k <= 255) /\
  v_cols square * (255 + Z.abs 15) * (255 + Z.abs 25) <= int_max /\
  forall F (O : fops F) junk (sa sb x : F),
    let w n := f_mul O (f_int O n) (f_mul O sa sb) in
    mat_mat_u8 O junk [] [10; 20; 30; 40] square (mk_params sa 15) [10; 20; 30; 40] square (mk_params sb 25) [x; x; x; x] square =
      Ok ([100; 100; -100; 300], [w 100; w 100; w (-100); w 300]).
Proof.
  split; [unfold inside, int_max; cbn; lia|]. split; [unfold multiplies, int_max; cbn; lia|].
  split; [apply square_reads; lia|]. split; [unfold int_max; cbn; lia|]. intros. reflexivity.
Qed.

Definition wide : view := mk_view 0 2 2 16.
Definition gapped : list Z := [10; 20; 9; 9; 9; 9; 9; 9; 9; 9; 9; 9; 9; 9; 9; 9; 30; 40].

Lemma gaps_product F (O : fops F) junk sa sb x :
  inside wide (lenZ gapped) /\ inside square (lenZ [10; 20; 30; 40]) /\ v_rows wide * v_cols wide * 4 + 32 <= int_max /\
  mget gapped wide 1 0 = Ok 30 /\ mget gapped wide 1 1 = Ok 40 /\
  exists s c1, mat_mat_u8 O junk [] gapped wide (mk_params sa 15) [10; 20; 30; 40] square (mk_params sb 25) [x; x; x; x] square = Ok (s, c1) /\
    mget c1 square 1 0 = Ok (f_mul O (f_int O 60) (f_mul O sa sb)) /\
    (30 - 15) * (10 - 25) + (40 - 15) * (30 - 25) = -100.
Proof.
  split; [unfold inside, int_max; cbn; lia|]. split; [unfold inside, int_max; cbn; lia|]. split; [unfold int_max; cbn; lia|].
  split; [reflexivity|]. split; [reflexivity|]. do 2 eexists. split; [reflexivity|]. split; reflexivity.
Qed.

Lemma outside_case : let q := [0; 0] in
  inside row (lenZ q) /\ inside column (lenZ q) /\ multiplies row column one /\ index one 0 0 /\
  ~ (- 2 ^ 31 <= sum_of Z.add (fun k => (0 - -40000) * (0 - -40000)) 0 (Z.to_nat (v_cols row)) < 2 ^ 31).
Proof.
  split; [unfold inside, int_max; cbn; lia|]. split; [unfold inside, int_max; cbn; lia|]. split; [apply multiplies_case|].
  split; [unfold index; cbn; lia|]. vm_compute. intros [_ H]. discriminate H.
Qed.
