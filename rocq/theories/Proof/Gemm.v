(** Products of matrices of 8-bit numbers. *)
From Coq Require Import ZArith List Bool Lia.
From Verif.Base Require Import Prelude Lemmas.
From Verif.Model Require Import Arith Vector Matrix Quantize Gemm.
From Verif.Spec Require Import MatrixSpec.
From Verif.Proof Require Import Loop Matrix.
Import ListNotations.
Open Scope Z_scope.

Lemma int_abs z : Z.abs z <= 2147483647 -> int z = Ok z.
Proof. intros. apply int_ok. lia. Qed.

(** The four sums of a product of differences. *)
Lemma expand (f g : Z -> Z) n p q :
  sum_of Z.add (fun l => f l * g l) 0 n + sum_of Z.add f 0 n * q + (sum_of Z.add g 0 n + q * Z.of_nat n) * p =
  sum_of Z.add (fun l => (f l + p) * (g l + q)) 0 n.
Proof.
  induction n as [|n IH]; cbn [sum_of]; [change (Z.of_nat 0) with 0; ring|].
  rewrite <- IH, Nat2Z.inj_succ. unfold Z.succ. ring.
Qed.

Lemma sum_bound (f : Z -> Z) B : forall n, (forall l, 0 <= l < Z.of_nat n -> 0 <= f l <= B) ->
  0 <= sum_of Z.add f 0 n <= Z.of_nat n * B.
Proof.
  induction n as [|n IH]; intros H; cbn [sum_of]; [lia|].
  assert (0 <= sum_of Z.add f 0 n <= Z.of_nat n * B) by (apply IH; intros; apply H; lia).
  specialize (H (Z.of_nat n)). lia.
Qed.

Lemma sum_monotone (f : Z -> Z) : forall n m, (n <= m)%nat -> (forall l, 0 <= l < Z.of_nat m -> 0 <= f l) ->
  sum_of Z.add f 0 n <= sum_of Z.add f 0 m.
Proof.
  intros n m L. induction L as [|m L IH]; intros H; [lia|]. cbn [sum_of].
  assert (sum_of Z.add f 0 n <= sum_of Z.add f 0 m) by (apply IH; intros; apply H; lia).
  specialize (H (Z.of_nat m)). lia.
Qed.

Lemma sum_ext (f g : Z -> Z) : forall n, (forall l, 0 <= l < Z.of_nat n -> f l = g l) -> sum_of Z.add f 0 n = sum_of Z.add g 0 n.
Proof.
  induction n as [|n IH]; intros H; cbn [sum_of]; [reflexivity|]. rewrite IH by (intros; apply H; lia). rewrite H by lia. reflexivity.
Qed.

(** One element. *)
Lemma entry_ok (lhs rhs : Z -> Z -> res Z) depth p q i j (f g : Z -> Z) : 0 < depth ->
  (forall l, 0 <= l < depth -> lhs i l = Ok (f l) /\ 0 <= f l <= 255) ->
  (forall l, 0 <= l < depth -> rhs l j = Ok (g l) /\ 0 <= g l <= 255) ->
  depth * (255 + Z.abs p) * (255 + Z.abs q) <= int_max ->
  gemm_entry lhs rhs depth p q i j = Ok (sum_of Z.add (fun l => (f l + p) * (g l + q)) 0 (Z.to_nat depth)).
Proof.
  intros D A B L. unfold int_max in L. 
  set (S := fun h n => sum_of Z.add h 0 (Z.to_nat n)).
  assert (L1 : depth * (255 * 255) + depth * 255 * Z.abs q + depth * 255 * Z.abs p + depth * (Z.abs p * Z.abs q) <= 2147483647) by nia.
  assert (P0 : 0 <= Z.abs p) by lia. assert (Q0 : 0 <= Z.abs q) by lia.
  assert (T2 : 0 <= depth * (Z.abs p * Z.abs q)) by (apply Z.mul_nonneg_nonneg; [lia|now apply Z.mul_nonneg_nonneg]).
  assert (T3 : 0 <= depth * 255 * Z.abs q) by (apply Z.mul_nonneg_nonneg; lia).
  assert (T4 : 0 <= depth * 255 * Z.abs p) by (apply Z.mul_nonneg_nonneg; lia).
  assert (Bab : forall n, 0 <= n <= depth -> 0 <= S (fun l => f l * g l) n <= n * 65025).
  { intros n H. replace n with (Z.of_nat (Z.to_nat n)) at 3 by lia. apply sum_bound. intros l I.
    destruct (A l) as [_ X]; [lia|]. destruct (B l) as [_ Y]; [lia|]. nia. }
  assert (Ba : forall n, 0 <= n <= depth -> 0 <= S f n <= n * 255).
  { intros n H. replace n with (Z.of_nat (Z.to_nat n)) at 3 by lia. apply sum_bound. intros l I. destruct (A l); [lia|assumption]. }
  assert (Bb : forall n, 0 <= n <= depth -> 0 <= S g n <= n * 255).
  { intros n H. replace n with (Z.of_nat (Z.to_nat n)) at 3 by lia. apply sum_bound. intros l I. destruct (B l); [lia|assumption]. }
  unfold gemm_entry.
  match goal with |- bind (for_up _ _ ?body _) _ = _ => set (bd := body) end.
  destruct (for_up_inv _ (fun k s => s = (S (fun l => f l * g l) k, S f k, S g k)) bd 0 depth (0, 0, 0)) as (s & E & ->).
  - lia.
  - reflexivity.
  - intros k s K ->. destruct (A k K) as (E1 & R1). destruct (B k K) as (E2 & R2). unfold bd. rewrite E1. cbn [bind]. rewrite E2. cbn [bind].
    assert (N : forall h, S h (k + 1) = S h k + h k).
    { intros h. unfold S. replace (Z.to_nat (k + 1)) with (Datatypes.S (Z.to_nat k)) by lia. cbn [sum_of]. now rewrite Z2Nat.id by lia. }
    pose proof (Bab (k + 1) ltac:(lia)) as X1. pose proof (Ba (k + 1) ltac:(lia)) as X2. pose proof (Bb (k + 1) ltac:(lia)) as X3.
    rewrite N in X1, X2, X3. cbv beta in X1.
    assert (T0 : (k + 1) * 65025 <= depth * (255 * 255)) by lia.
    rewrite int_ok by lia. cbn [bind]. rewrite int_ok by lia. cbn [bind]. rewrite int_ok by lia. cbn [bind].
    eexists. split; [reflexivity|]. rewrite !N. reflexivity.
  - rewrite E. cbn [bind]. clear E bd.
    specialize (Bab depth ltac:(lia)). specialize (Ba depth ltac:(lia)). specialize (Bb depth ltac:(lia)).
    set (ab := S _ depth) in *. set (sa := S f depth) in *. set (sb := S g depth) in *.
    assert (M1 : Z.abs (sa * q) <= depth * 255 * Z.abs q) by (rewrite Z.abs_mul; nia).
    assert (M2 : Z.abs (q * depth) <= depth * Z.abs q) by (rewrite Z.abs_mul; nia).
    assert (M3 : Z.abs ((sb + q * depth) * p) <= depth * 255 * Z.abs p + depth * (Z.abs p * Z.abs q)).
    { rewrite Z.abs_mul. assert (Z.abs (sb + q * depth) <= depth * 255 + depth * Z.abs q) by lia. nia. }
    assert (Bound : Z.abs (sa * q) <= 2147483647 /\ Z.abs (ab + sa * q) <= 2147483647 /\ Z.abs (q * depth) <= 2147483647 /\
      Z.abs (sb + q * depth) <= 2147483647 /\ Z.abs ((sb + q * depth) * p) <= 2147483647 /\
      Z.abs (ab + sa * q + (sb + q * depth) * p) <= 2147483647).
    { clear - Bab Ba Bb M1 M2 M3 T2 T3 T4 L1 D.
      assert (W : 0 <= depth * Z.abs q) by (apply Z.mul_nonneg_nonneg; lia).
      replace (depth * 255 * Z.abs q) with (255 * (depth * Z.abs q)) in * by ring. revert W. revert M1 M2 M3 T2 T3 T4 L1.
      generalize ((sb + q * depth) * p) as u1, (sa * q) as u2, (q * depth) as u3. intros u1 u2 u3.
      generalize (depth * Z.abs q) as w1, (depth * 255 * Z.abs p) as w2, (depth * (Z.abs p * Z.abs q)) as w3.
      intros. lia. }
    destruct Bound as (B1 & B2 & B3 & B4 & B5 & B6).
    rewrite (int_abs _ B1). cbn [bind]. rewrite (int_abs _ B2). cbn [bind]. rewrite (int_abs _ B3). cbn [bind].
    rewrite (int_abs _ B4). cbn [bind]. rewrite (int_abs _ B5). cbn [bind]. rewrite (int_abs _ B6).
    f_equal. unfold ab, sa, sb, S.
    rewrite <- (expand f g (Z.to_nat depth) p q). rewrite Z2Nat.id by lia. reflexivity.
Qed.

Lemma dispatch_ok (lhs rhs : Z -> Z -> res Z) m n depth p q i j (f g : Z -> Z) : 0 < depth ->
  (forall l, 0 <= l < depth -> lhs i l = Ok (f l) /\ 0 <= f l <= 255) ->
  (forall l, 0 <= l < depth -> rhs l j = Ok (g l) /\ 0 <= g l <= 255) ->
  depth * (255 + Z.abs p) * (255 + Z.abs q) <= int_max ->
  dispatch lhs rhs m n depth p q i j = Ok (sum_of Z.add (fun l => (f l + p) * (g l + q)) 0 (Z.to_nat depth)).
Proof.
  intros D A B L. unfold dispatch. destruct (m <? n).
  - rewrite (entry_ok (fun j l => rhs l j) (fun l i => lhs i l) depth q p j i g f); try assumption.
    + f_equal. apply sum_ext. intros. lia.
    + lia.
  - now apply entry_ok.
Qed.

Section Product.
Context {F : Type}.
Variable O : fops F.
Variable junk : nat -> Z.

Lemma assure_ok scratch cells : 0 < cells -> cells * 4 + 32 <= int_max ->
  exists t, assure_size junk scratch (wrap32 (cells * 4)) = Ok t /\ cells <= lenZ t.
Proof.
  intros P L. unfold int_max in L. 
  replace (wrap32 (cells * 4)) with (cells * 4) by (unfold wrap32, int_max; rewrite Z.mod_small by lia; destruct (Z.leb_spec (cells * 4) 2147483647); lia).
  unfold assure_size. destruct (Z.leb_spec (cells * 4) (4 * lenZ scratch)).
  - exists scratch. split; [reflexivity|lia].
  - rewrite int_ok by lia. cbn [bind]. eexists. split; [reflexivity|].
    unfold lenZ. rewrite map_length, seq_length. rewrite Z.div_mul by lia. lia.
Qed.

Lemma mapped_ok b v r c x : inside v (lenZ b) -> v_stride v = v_cols v -> index v r c ->
  mget b v r c = Ok x -> mapped b (v_off v) (v_cols v) r c = Ok x.
Proof.
  intros I T J E. rewrite mget_cell in E by assumption. unfold mapped. rewrite <- T.
  rewrite (row_int v (lenZ b)) by (try assumption; apply J). cbn [bind]. exact E.
Qed.

Lemma product_u8_ok scratch a va pa b vb pb c vc (fa fb : Z -> Z -> Z) :
  inside va (lenZ a) -> inside vb (lenZ b) -> inside vc (lenZ c) ->
  v_stride va = v_cols va -> v_stride vb = v_cols vb -> v_stride vc = v_cols vc ->
  v_cols va = v_rows vb -> v_rows va = v_rows vc -> v_cols vb = v_cols vc ->
  1 < v_rows va * v_cols va -> 1 < v_rows vb * v_cols vb ->
  v_rows vc * v_cols vc * 4 + 32 <= int_max ->
  (forall r k, index va r k -> mget a va r k = Ok (fa r k) /\ 0 <= fa r k <= 255) ->
  (forall k r, index vb k r -> mget b vb k r = Ok (fb k r) /\ 0 <= fb k r <= 255) ->
  v_cols va * (255 + Z.abs (p_zero pa)) * (255 + Z.abs (p_zero pb)) <= int_max ->
  exists s c1, mat_mat_u8 O junk scratch a va pa b vb pb c vc = Ok (s, c1) /\ only vc c c1 /\
    forall i j, index vc i j ->
      mget c1 vc i j = Ok (f_mul O
        (f_int O (sum_of Z.add (fun k => (fa i k - p_zero pa) * (fb k j - p_zero pb)) 0 (Z.to_nat (v_cols va))))
        (f_mul O (p_scale pa) (p_scale pb))).
Proof.
  intros Ia Ib Ic Sa Sb Sc D1 D2 D3 Na Nb Nc Fa Fb Bd.
  assert (Ja := Ia). assert (Jb := Ib). assert (Jc := Ic). unfold inside in Ja, Jb, Jc.
  unfold int_max in *.
  assert (Za : Z.abs (p_zero pa) <= 2147483647 /\ Z.abs (p_zero pb) <= 2147483647).
  { clear - Bd Ja. split; nia. }
  unfold mat_mat_u8. rewrite D1, D2, D3, !Z.eqb_refl. cbn [andb check bind].
  rewrite int_ok by (rewrite <- D1, <- D2; rewrite Sa in Ja; nia). cbn [bind].
  destruct (Z.ltb_spec 1 (v_rows vb * v_rows vc)); [|rewrite <- D1, <- D2 in *; lia]. cbn [check bind].
  rewrite int_ok by (rewrite <- D3; rewrite Sb in Jb; nia). cbn [bind].
  destruct (Z.ltb_spec 1 (v_cols vc * v_rows vb)); [|rewrite <- D3 in *; lia]. cbn [check bind].
  rewrite int_ok by lia. cbn [bind]. rewrite int_ok by lia. cbn [bind].
  unfold eight_bit_gemm.
  assert (Nn : 0 < v_rows vc * v_cols vc) by nia.
  rewrite int_ok by lia. cbn [bind].
  destruct (assure_ok scratch (v_rows vc * v_cols vc) Nn ltac:(unfold int_max; lia)) as (t & -> & Lt). cbn [bind].
  set (val := fun i j => sum_of Z.add (fun k => (fa i k - p_zero pa) * (fb k j - p_zero pb)) 0 (Z.to_nat (v_cols va))).
  set (vt := mk_view 0 (v_rows vc) (v_cols vc) (v_cols vc)).
  assert (It : inside vt (lenZ t)).
  { unfold inside, vt, int_max. cbn [v_off v_rows v_cols v_stride]. nia. }
  assert (RB : forall i, 0 <= i < v_rows vc -> 0 <= i * v_cols vc /\ i * v_cols vc + v_cols vc <= v_rows vc * v_cols vc).
  { clear - Jc. intros i I. split; nia. }
  assert (Ri : forall i, 0 <= i < v_rows vc -> int (i * v_cols vc) = Ok (i * v_cols vc)).
  { intros i I. apply int_ok. specialize (RB i I). lia. }
  destruct (fill (fun t i => for_up 0 (v_cols vc) (fun t j =>
            x <- dispatch (mapped a (v_off va) (v_rows vb)) (mapped b (v_off vb) (v_cols vc)) (v_rows vc) (v_cols vc)
                   (v_rows vb) (- p_zero pa) (- p_zero pb) i j ;;
            p <- int (i * v_cols vc) ;;
            setZ t (p + j) x) t) vt t val It) as (t1 & E1 & L1 & V1 & _).
  { intros t0 r R L0. cbn [vt v_rows v_cols] in R |- *.
    destruct (fill_row (fun t j =>
            x <- dispatch (mapped a (v_off va) (v_rows vb)) (mapped b (v_off vb) (v_cols vc)) (v_rows vc) (v_cols vc)
                   (v_rows vb) (- p_zero pa) (- p_zero pb) r j ;;
            p <- int (r * v_cols vc) ;;
            setZ t (p + j) x) t0 (r * v_cols vc) (v_cols vc) (val r)) as (t2 & E2 & L2 & V2 & G2).
    - specialize (RB r R). lia.
    - lia.
    - rewrite L0. specialize (RB r R). lia.
    - intros t2 j J L2. rewrite (Ri r R).
      rewrite (dispatch_ok _ _ (v_rows vc) (v_cols vc) (v_rows vb) (- p_zero pa) (- p_zero pb) r j (fun k => fa r k) (fun k => fb k j)).
      + cbn [bind]. unfold val. rewrite D1. reflexivity.
      + lia.
      + intros l K. destruct (Fa r l) as (E & B); [unfold index; lia|]. split; [|exact B].
        rewrite <- D1. apply (mapped_ok a va r l); [assumption|assumption|unfold index; lia|exact E].
      + intros l K. destruct (Fb l j) as (E & B); [unfold index; lia|]. split; [|exact B].
        rewrite <- D3. apply (mapped_ok b vb l j); [assumption|assumption|unfold index; lia|exact E].
      + unfold int_max. rewrite !Z.abs_opp, <- D1. exact Bd.
    - exists t2. split; [exact E2|]. split; [congruence|]. unfold cell. cbn [vt v_off v_stride]. split.
      + intros j J. rewrite <- (V2 j J). f_equal; lia.
      + intros i I. apply G2. lia. }
  cbn [vt v_rows] in E1. rewrite E1. cbn [bind].
  set (res i j := f_mul O (f_int O (val i j)) (f_mul O (p_scale pa) (p_scale pb))).
  destruct (fill (fun c i => p <- int (i * v_cols vc) ;; for_up 0 (v_cols vc) (fun c j =>
           x <- getZ t1 (p + j) ;;
           setZ c (v_off vc + p + j) (f_mul O (f_int O x) (f_mul O (p_scale pa) (p_scale pb)))) c) vc c res Ic) as (c1 & E3 & L3 & V3 & G3).
  { intros c0 r R L0. rewrite (Ri r R). cbn [bind].
    destruct (fill_row (fun c j => x <- getZ t1 (r * v_cols vc + j) ;;
           setZ c (v_off vc + r * v_cols vc + j) (f_mul O (f_int O x) (f_mul O (p_scale pa) (p_scale pb))))
           c0 (v_off vc + r * v_cols vc) (v_cols vc) (res r)) as (c2 & E2 & L2 & V2 & G2).
    - specialize (RB r R). lia.
    - lia.
    - rewrite L0. rewrite Sc in Jc. specialize (RB r R). lia.
    - intros c2 j J _. assert (I : index vt r j) by (unfold index, vt; cbn [v_rows v_cols]; lia).
      specialize (V1 r j I). unfold cell in V1. cbn [vt v_off v_stride] in V1.
      replace (0 + r * v_cols vc + j) with (r * v_cols vc + j) in V1 by lia. rewrite V1. reflexivity.
    - exists c2. split; [exact E2|]. split; [congruence|]. unfold cell. rewrite Sc. split.
      + intros j J. apply V2. exact J.
      + intros i I. apply G2. lia. }
  rewrite E3. cbn [bind]. exists t1, c1. split; [reflexivity|]. split.
  - apply only_cells; assumption.
  - intros i j I. rewrite mget_cell; [rewrite <- D1; now apply V3| |exact I]. rewrite L3. exact Ic.
Qed.
End Product.
