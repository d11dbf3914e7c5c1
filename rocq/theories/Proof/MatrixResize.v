(** Allocation, resizing and products of matrices. *)
From Coq Require Import ZArith List Bool Lia.
From Verif.Base Require Import Prelude Lemmas.
From Verif.Model Require Import Vector Matrix.
From Verif.Spec Require Import MatrixSpec.
From Verif.Proof Require Import Loop Matrix.
Import ListNotations.
Open Scope Z_scope.

Lemma element_sizes : forall w, element_size w -> 0 < 16 / w <= 16.
Proof.
  intros w [P M]. pose proof (Z.div_mod 16 w ltac:(lia)) as E. rewrite M in E.
  assert (0 <= 16 / w) by (apply Z.div_pos; lia).
  assert (16 / w <> 0) by (intros Q; rewrite Q in E; lia). nia.
Qed.

Lemma padding : forall k cols, 0 < k -> 0 < cols ->
  cols + (k - cols mod k) mod k = (cols + k - 1) / k * k.
Proof.
  intros k cols K P. pose proof (Z.div_mod cols k ltac:(lia)) as E.
  pose proof (Z.mod_pos_bound cols k K) as B. set (q := cols / k) in *. set (r := cols mod k) in *.
  destruct (Z.eq_dec r 0) as [Z0|N].
  - rewrite Z0, Z.sub_0_r, Z.mod_same by lia.
    replace (cols + k - 1) with ((k - 1) + q * k) by lia. rewrite Z.div_add, Z.div_small by lia. lia.
  - rewrite Z.mod_small by lia.
    replace (cols + k - 1) with ((r - 1) + (q + 1) * k) by lia. rewrite Z.div_add, Z.div_small by lia. lia.
Qed.

Lemma padded_ge : forall w cols, element_size w -> 0 < cols -> cols <= padded w cols < cols + 16.
Proof.
  intros w cols H P. pose proof (element_sizes w H) as K. unfold padded. rewrite <- padding by lia.
  pose proof (Z.mod_pos_bound (16 / w - cols mod (16 / w)) (16 / w) ltac:(lia)). lia.
Qed.

Section Resize.
Context {A : Type}.
Variable zero : A.
Variable width : Z.
Variable junk : nat -> A.
Hypothesis W : element_size width.

Lemma init_ok : forall rows cols s, fits width rows cols s ->
  exists b, mat_init width junk rows cols s =
      Ok (mk_mat (Some b) (mk_view 0 rows cols
            (match s with DefaultStride => padded width cols | StrideEqualNumCols => cols end))) /\
    lenZ b = rows * padded width cols /\
    inside (mk_view 0 rows cols
            (match s with DefaultStride => padded width cols | StrideEqualNumCols => cols end)) (lenZ b).
Proof.
  intros rows cols s (R & Cc & H). pose proof (padded_ge width cols W Cc) as P.
  pose proof (element_sizes width W) as K. unfold int_max in H.
  assert (rows * cols <= 2147483647 /\ padded width cols <= 2147483647) as [H1 H2].
  { destruct s; [|exact H]. split; nia. }
  exists (map junk (seq 0 (Z.to_nat (rows * padded width cols)))).
  assert (L : lenZ (map junk (seq 0 (Z.to_nat (rows * padded width cols)))) = rows * padded width cols).
  { unfold lenZ. rewrite map_length, seq_length. nia. }
  split; [|split; [exact L|]].
  - unfold mat_init. rewrite int_ok by nia. cbn [bind]. destruct (Z.eqb_spec (rows * cols) 0); [nia|].
    destruct (Z.ltb_spec 0 rows); [|lia]. destruct (Z.ltb_spec 0 cols); [|lia]. cbn [andb check bind].
    rewrite padding by lia. fold (padded width cols). rewrite int_ok by lia. cbn [bind]. reflexivity.
  - rewrite L. unfold inside, int_max. destruct s; cbn; nia.
Qed.

Lemma init_layout : forall rows cols s, fits width rows cols s ->
  exists m, mat_init width junk rows cols s = Ok m /\ proper m /\
    v_rows (m_view m) = rows /\ v_cols (m_view m) = cols /\
    match s with
    | DefaultStride => (v_stride (m_view m) * width) mod 16 = 0
    | StrideEqualNumCols => v_stride (m_view m) = cols
    end.
Proof.
  intros rows cols s H. destruct (init_ok rows cols s H) as [b (E & L & I)]. eexists. split; [exact E|].
  split; [exists b; split; [reflexivity|exact I]|]. cbn. split; [reflexivity|]. split; [reflexivity|].
  destruct s; [|reflexivity]. unfold padded. destruct W as [P M].
  pose proof (Z.div_mod 16 width ltac:(lia)) as D16. rewrite M in D16.
  rewrite <- Z.mul_assoc. replace (16 / width * width) with 16 by lia.
  apply Z.mod_mul. lia.
Qed.

Lemma init_overflow : forall rows cols s, rows * cols > int_max ->
  mat_init width junk rows cols s = Fault Undef.
Proof.
  intros rows cols s H. unfold mat_init, int. destruct (in_int32 (rows * cols)) eqn:E; [|reflexivity].
  apply in_int32_iff in E. unfold int_max in H. lia.
Qed.

Lemma fresh_ok : forall m rows cols z s, (forall b, m_block m = Some b -> inside (m_view m) (lenZ b)) ->
  fits width rows cols s ->
  exists m', resize_fresh zero width junk m rows cols z s = Ok m' /\ proper m' /\
    v_rows (m_view m') = rows /\ v_cols (m_view m') = cols /\
    (m_block m = None -> s = StrideEqualNumCols ->
       m_view m' = mk_view 0 rows cols cols) /\
    (z = true -> forall r c, index (m_view m') r c -> element m' r c = Ok zero).
Proof.
  intros m rows cols z s H Ft.
  assert (New : exists m', (m <- mat_init width junk rows cols s ;; if z : bool then set_zero zero m else Ok m) = Ok m' /\
    proper m' /\ v_rows (m_view m') = rows /\ v_cols (m_view m') = cols /\
    (m_block m = None -> s = StrideEqualNumCols -> m_view m' = mk_view 0 rows cols cols) /\
    (z = true -> forall r c, index (m_view m') r c -> element m' r c = Ok zero)).
  { destruct (init_ok rows cols s Ft) as [b (E & L & I)]. rewrite E. cbn [bind]. clear E. destruct z.
    - destruct (set_zero_cells zero b _ I) as [b1 (E1 & [O1 _] & V1)]. eexists. split; [exact E1|].
      split; [exists b1; split; [reflexivity|unfold lenZ in *; cbn; now rewrite O1]|].
      cbn. split; [reflexivity|]. split; [reflexivity|]. split; [intros _ ->; reflexivity|].
      intros _ r c J. unfold element. cbn. now apply V1.
    - eexists. split; [reflexivity|]. split; [exists b; split; [reflexivity|exact I]|].
      cbn. split; [reflexivity|]. split; [reflexivity|]. split; [intros _ ->; reflexivity|discriminate]. }
  unfold resize_fresh. destruct (m_block m) as [b|] eqn:Eb; [|exact New].
  specialize (H b eq_refl).
  destruct (Z.eqb_spec rows (v_rows (m_view m))) as [ER|_]; [|exact New].
  destruct (Z.eqb_spec cols (v_cols (m_view m))) as [EC|_]; [|exact New]. cbn [andb].
  destruct m as [bb v]. cbn [m_block m_view] in *. subst bb. destruct z.
  - destruct (set_zero_cells zero b v H) as [b1 (E1 & [O1 _] & V1)]. eexists. split; [exact E1|].
    split; [exists b1; split; [reflexivity|unfold lenZ in *; cbn; now rewrite O1]|].
    cbn. split; [auto|]. split; [auto|]. split; [discriminate|].
    intros _ r c J. unfold element. cbn. now apply V1.
  - eexists. split; [reflexivity|]. split; [exists b; split; [reflexivity|exact H]|].
    cbn. split; [auto|]. split; [auto|]. split; discriminate.
Qed.

Lemma resize_copy : forall m rows cols s, proper m -> fits width rows cols StrideEqualNumCols ->
  exists m', mat_resize zero width junk m rows cols CopyData s = Ok m' /\ proper m' /\
    v_rows (m_view m') = rows /\ v_cols (m_view m') = cols /\
    forall r c, index (m_view m') r c ->
      (index (m_view m) r c -> element m' r c = element m r c) /\
      (~ index (m_view m) r c -> element m' r c = Ok zero).
Proof.
  intros [bb v] rows cols s [b [Eb H]] Ft. cbn [m_block m_view] in *. subst bb.
  pose proof Ft as (R & Cc & _). assert (Hv := H). unfold inside in Hv.
  unfold mat_resize. cbn [m_block m_view].
  destruct (Z.eqb_spec rows 0); [lia|].
  destruct ((rows =? v_rows v) && (cols =? v_cols v)) eqn:Same.
  { apply andb_true_iff in Same. destruct Same as [S1 S2]. apply Z.eqb_eq in S1, S2.
    eexists. split; [reflexivity|]. split; [exists b; split; [reflexivity|exact H]|]. cbn.
    split; [auto|]. split; [auto|]. intros r c I. split; [reflexivity|]. contradiction. }
  set (z := (rows >? v_rows v) || (cols >? v_cols v)).
  destruct (fresh_ok (mk_mat None no_view) rows cols z StrideEqualNumCols) as [tmp (E & P & TR & TC & TV & TZ)];
    [discriminate|exact Ft|]. rewrite E. cbn [bind].
  specialize (TV eq_refl eq_refl). destruct P as [t [Et It]]. destruct tmp as [tb tv]. cbn [m_block m_view] in *.
  subst tb tv. cbn [v_rows v_cols] in *.
  destruct (sub_matrix_inside _ _ 0 (Z.min rows (v_rows v)) 0 (Z.min cols (v_cols v)) It) as [w (Ew & Iw & Rw & Cw & Lw)];
    try (cbn; lia).
  destruct (sub_matrix_inside v _ 0 (Z.min rows (v_rows v)) 0 (Z.min cols (v_cols v)) H) as [u (Eu & Iu & Ru & Cu & Lu)];
    try lia.
  rewrite Ew. cbn [bind]. rewrite Eu. cbn [bind].
  destruct (copy_plain t w b u Iw Iu) as [t1 (Ec & [O1 O2] & V)]; [congruence|congruence|].
  rewrite Ec. cbn [bind]. eexists. split; [reflexivity|].
  assert (L1 : lenZ t1 = lenZ t) by (unfold lenZ; now rewrite O1).
  assert (I1 : inside (mk_view 0 rows cols cols) (lenZ t1)) by now rewrite L1.
  split; [exists t1; split; [reflexivity|exact I1]|].
  cbn [m_view v_rows v_cols]. split; [reflexivity|]. split; [reflexivity|].
  intros r c I. unfold element. cbn [m_block m_view]. assert (I' := I). unfold index in I'. cbn in I'. split.
  - intros J. unfold index in J. assert (K : index w r c) by (unfold index; lia).
    specialize (V r c K). rewrite (mget_cell w t1), (mget_cell u b) in V by (rewrite ?L1; auto; unfold index; lia).
    rewrite (mget_cell (mk_view 0 rows cols cols) t1), (mget_cell v b) by (auto; unfold index; lia).
    rewrite Lw, Lu in V. exact V.
  - intros J. assert (Z1 : z = true).
    { unfold index in J. unfold z. destruct (Z.gtb_spec rows (v_rows v)); [reflexivity|].
      destruct (Z.gtb_spec cols (v_cols v)); [reflexivity|]. lia. }
    specialize (TZ Z1 r c I). unfold element in TZ. cbn [m_block m_view] in TZ. rewrite <- TZ.
    rewrite (mget_cell _ t1), (mget_cell _ t) by auto.
    apply O2. intros r' c' K Q. rewrite (place_ok w (lenZ t)) in Q by assumption.
    assert (Q' : cell w r' c' = cell (mk_view 0 rows cols cols) r c) by congruence. rewrite Lw in Q'.
    unfold index in *. apply cell_inj in Q'; cbn; try lia.
Qed.

Lemma resize_zero : forall m rows cols s, (proper m \/ m_block m = None) -> fits width rows cols s ->
  exists m', mat_resize zero width junk m rows cols SetZero s = Ok m' /\ proper m' /\
    v_rows (m_view m') = rows /\ v_cols (m_view m') = cols /\
    forall r c, index (m_view m') r c -> element m' r c = Ok zero.
Proof.
  intros m rows cols s H Ft. destruct (fresh_ok m rows cols true s) as [m' (E & P & R & Cc & _ & Z)]; auto.
  - intros b Eb. destruct H as [[b' [Eb' I]]|N]; [|congruence]. congruence.
  - exists m'. split; [exact E|]. split; [exact P|]. split; [exact R|]. split; [exact Cc|]. now apply Z.
Qed.

End Resize.

Section Product.
Context {A : Type}.
Variable zero : A.
Variable add mul : A -> A -> A.

Lemma seqZ_snoc : forall n a, seqZ a (S n) = seqZ a n ++ [a + Z.of_nat n].
Proof. intros. replace (S n) with (n + 1)%nat by lia. now rewrite seqZ_app. Qed.

Lemma product_ok : forall a va b vb c vc (fa fb : Z -> Z -> A),
  inside va (lenZ a) -> inside vb (lenZ b) -> inside vc (lenZ c) ->
  v_cols vb = v_cols vc -> v_rows va = v_rows vc -> v_cols va = v_rows vb ->
  (forall r k, index va r k -> mget a va r k = Ok (fa r k)) ->
  (forall r k, index vb r k -> mget b vb r k = Ok (fb r k)) ->
  exists c1, simple_mat_mat zero add mul a va b vb c vc = Ok c1 /\ only vc c c1 /\
    forall i j, index vc i j ->
      mget c1 vc i j = Ok (sum_of add (fun k => mul (fa i k) (fb k j)) zero (Z.to_nat (v_cols va))).
Proof.
  intros a va b vb c vc fa fb Ha Hb Hc E1 E2 E3 Fa Fb.
  unfold simple_mat_mat. rewrite (proj2 (Z.eqb_eq _ _) E1), (proj2 (Z.eqb_eq _ _) E2), (proj2 (Z.eqb_eq _ _) E3).
  cbn [check bind]. destruct (set_zero_cells zero c vc Hc) as [c0 (Ez & [O1 O2] & Vz)]. rewrite Ez. cbn [bind m_block].
  assert (L0 : lenZ c0 = lenZ c) by (unfold lenZ; now rewrite O1).
  assert (H0 : inside vc (lenZ c0)) by now rewrite L0.
  assert (Ia := Ha). assert (Ib := Hb). assert (Ic := Hc). unfold inside in Ia, Ib, Ic.
  set (s := fun i j n => sum_of add (fun k => mul (fa i k) (fb k j)) zero (Z.to_nat n)).
  (* Before the step k of the element (row, col). *)
  set (inv := fun row col k c1 => lenZ c1 = lenZ c0 /\
        (forall i j, index vc i j ->
           getZ c1 (cell vc i j) =
             Ok (if (i <? row) || ((i =? row) && (j <? col)) then s i j (v_cols va)
                 else if (i =? row) && (j =? col) then s i j k else zero)) /\
        (forall p, (forall i j, index vc i j -> p <> cell vc i j) -> getZ c1 p = getZ c0 p)).
  destruct (for_up_inv _ (fun row => inv row 0 0) (fun c row =>
    for_up 0 (v_cols vb) (fun c col => for_up 0 (v_cols va) (fun c k =>
        z <- mget c vc row col ;; x <- mget a va row k ;; y <- mget b vb k col ;;
        mset c vc row col (add z (mul x y))) c) c) 0 (v_rows va) c0 ltac:(lia)) as [c1 [E (L & V & G)]].
  - split; [reflexivity|]. split; [|reflexivity]. intros i j I. specialize (Vz i j I).
    rewrite mget_cell in Vz by assumption. rewrite Vz. unfold index in I.
    destruct (Z.ltb_spec i 0); [lia|]. destruct (Z.ltb_spec j 0); [lia|]. rewrite andb_false_r. cbn [orb].
    destruct (_ && _); [reflexivity|reflexivity].
  - intros row c1 R J1.
    destruct (for_up_inv _ (fun col => inv row col 0) (fun c col => for_up 0 (v_cols va) (fun c k =>
        z <- mget c vc row col ;; x <- mget a va row k ;; y <- mget b vb k col ;;
        mset c vc row col (add z (mul x y))) c) 0 (v_cols vb) c1 ltac:(lia) J1) as [c2 [E2' J2]].
    + intros col c2 Cc J2.
      destruct (for_up_inv _ (fun k => inv row col k) (fun c k =>
        z <- mget c vc row col ;; x <- mget a va row k ;; y <- mget b vb k col ;;
        mset c vc row col (add z (mul x y))) 0 (v_cols va) c2 ltac:(lia) J2) as [c3 [E3' J3]].
      * intros k c3 K (L & V & G).
        assert (I : index vc row col) by (unfold index; lia).
        assert (H3 : inside vc (lenZ c3)) by (rewrite L; exact H0).
        pose proof (cell_range vc (lenZ c3) row col H3 I) as Rg.
        assert (Ez' : mget c3 vc row col = Ok (s row col k)).
        { rewrite mget_cell, (V row col I) by assumption. rewrite !Z.ltb_irrefl, !Z.eqb_refl. reflexivity. }
        exists (upd c3 (Z.to_nat (cell vc row col)) (s row col (k + 1))). split.
        -- rewrite Ez'. cbn [bind]. rewrite Fa, Fb by (unfold index; lia). cbn [bind].
           unfold mset. rewrite (place_ok vc (lenZ c3)) by assumption. cbn [bind]. rewrite setZ_ok by assumption.
           f_equal. f_equal. unfold s. replace (Z.to_nat (k + 1)) with (S (Z.to_nat k)) by lia. cbn [sum_of].
           now rewrite Z2Nat.id by lia.
        -- split; [now rewrite lenZ_upd|]. split.
           ++ intros i j Iij. rewrite getZ_upd by assumption.
              destruct (Z.eqb_spec (cell vc row col) (cell vc i j)) as [Q|Q].
              ** unfold index in *. apply cell_inj in Q; [|lia|lia]. destruct Q as [<- <-].
                 rewrite !Z.ltb_irrefl, !Z.eqb_refl. reflexivity.
              ** rewrite (V i j Iij). f_equal. destruct ((i <? row) || _); [reflexivity|].
                 destruct (Z.eqb_spec i row); [|reflexivity]. destruct (Z.eqb_spec j col); [|reflexivity].
                 subst. congruence.
           ++ intros p P. rewrite getZ_upd by assumption.
              destruct (Z.eqb_spec (cell vc row col) p) as [Q|_]; [exfalso; now apply (P row col I)|]. now apply G.
      * exists c3. split; [exact E3'|]. destruct J3 as (L & V & G). split; [exact L|]. split; [|exact G].
        intros i j I. rewrite (V i j I). f_equal.
        destruct (Z.ltb_spec i row); [reflexivity|]. cbn [orb].
        destruct (Z.eqb_spec i row); [|reflexivity]. cbn [andb].
        destruct (Z.ltb_spec j col), (Z.ltb_spec j (col + 1)), (Z.eqb_spec j col), (Z.eqb_spec j (col + 1)); try lia; reflexivity.
    + exists c2. split; [exact E2'|]. destruct J2 as (L & V & G). split; [exact L|]. split; [|exact G].
      intros i j I. rewrite (V i j I). f_equal. unfold index in I.
      destruct (Z.ltb_spec i row), (Z.ltb_spec i (row + 1)), (Z.eqb_spec i row), (Z.eqb_spec i (row + 1));
        try lia; cbn [orb andb]; destruct (Z.ltb_spec j (v_cols vb)), (Z.ltb_spec j 0), (Z.eqb_spec j 0); try lia; reflexivity.
  - exists c1. split; [exact E|]. split.
    + apply only_cells; auto; [congruence|]. intros p P. rewrite (G p P). apply O2.
      intros r k I Q. rewrite (place_ok vc (lenZ c)) in Q by assumption. apply (P r k I). congruence.
    + intros i j I. rewrite mget_cell by (auto; rewrite L; exact H0). rewrite (V i j I). unfold index in I.
      destruct (Z.ltb_spec i (v_rows va)); [reflexivity|lia].
Qed.

End Product.
