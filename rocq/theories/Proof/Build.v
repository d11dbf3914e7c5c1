(** Layers built in memory. *)
From Coq Require Import ZArith List Bool Lia.
From Verif.Base Require Import Prelude Lemmas.
From Verif.Model Require Import Arith Vector Matrix Fbank Nnet Build.
From Verif.Spec Require Import MatrixSpec AmSpec BuildSpec.
From Verif.Proof Require Import Loop Matrix MatrixResize Nnet.
Import ListNotations.
Open Scope Z_scope.

Lemma pointer_view : forall (A : Type) (b : list A) off rows cols stride,
  0 <= off -> 0 < rows -> 0 < cols <= stride -> (rows - 1) * stride + cols <= int_max ->
  off + (rows - 1) * stride + cols <= lenZ b ->
  exists v, sub_matrix_at (Some off) rows cols stride = Ok v /\ v_rows v = rows /\ v_cols v = cols /\
    inside v (lenZ b) /\ forall r c, 0 <= r < rows -> 0 <= c < cols -> mget b v r c = getZ b (off + r * stride + c).
Proof.
  intros A b off rows cols stride Ho Hr Hc Hi Hn. exists (mk_view off rows cols stride).
  assert (I : inside (mk_view off rows cols stride) (lenZ b)) by (unfold inside; cbn [v_off v_rows v_cols v_stride]; lia).
  unfold sub_matrix_at. destruct (Z.leb_spec cols stride); [|lia]. cbn [check bind].
  repeat split; try exact I; try apply I. intros r c R C. rewrite mget_cell; [reflexivity|exact I|now split].
Qed.

Lemma pointer_refused : forall rows cols stride,
  (stride < cols -> forall off, sub_matrix_at (Some off) rows cols stride = Fault Assert) /\
  (rows * cols <> 0 -> Z.abs (rows * cols) <= int_max -> sub_matrix_at None rows cols stride = Fault Assert) /\
  (rows * cols = 0 -> sub_matrix_at None rows cols stride = Ok no_view).
Proof.
  intros rows cols stride. unfold sub_matrix_at, int_max. repeat split.
  - intros H off. destruct (Z.leb_spec cols stride); [lia|reflexivity].
  - intros H B. rewrite int_ok by lia. cbn [bind]. destruct (Z.eqb_spec (rows * cols) 0); [lia|reflexivity].
  - intros ->. reflexivity.
Qed.

Lemma scaled : forall (A : Type) (mul : A -> A -> A) b v alpha, inside v (lenZ b) ->
  exists b', mat_scale mul b v alpha = Ok b' /\ only v b b' /\
    forall r c x, index v r c -> mget b v r c = Ok x -> mget b' v r c = Ok (mul x alpha).
Proof.
  intros A mul b v alpha IN. assert (Hi := IN). unfold inside in Hi. unfold mat_scale.
  set (body := fun b r => _).
  destruct (for_up_inv _ (fun k s => lenZ s = lenZ b /\
    (forall r c x, index v r c -> getZ b (cell v r c) = Ok x -> getZ s (cell v r c) = Ok (if r <? k then mul x alpha else x)) /\
    (forall i, (forall r c, index v r c -> i <> cell v r c) -> getZ s i = getZ b i)) body 0 (v_rows v) b ltac:(lia)) as (b' & E & L & V & G).
  - split; [reflexivity|]. split; [|reflexivity]. intros r c x (R & C) X. destruct (Z.ltb_spec r 0); [lia|exact X].
  - intros k s K (L & V & G). unfold body. rewrite (row_start_ok v (lenZ b)) by assumption. cbn [bind].
    destruct (for_up_inv _ (fun j s' => lenZ s' = lenZ b /\
      (forall r c x, index v r c -> getZ b (cell v r c) = Ok x ->
         getZ s' (cell v r c) = Ok (if (r <? k) || ((r =? k) && (c <? j)) then mul x alpha else x)) /\
      (forall i, (forall r c, index v r c -> i <> cell v r c) -> getZ s' i = getZ b i))
      (fun s j => x <- getZ s (cell v k 0 + j) ;; setZ s (cell v k 0 + j) (mul x alpha)) 0 (v_cols v) s ltac:(lia)) as (s' & E & L' & V' & G').
    + split; [exact L|]. split; [|exact G]. intros r c x I X. rewrite (V r c x I X). destruct I as (R & C).
      destruct (Z.eqb_spec r k), (Z.ltb_spec c 0); try lia; now rewrite ?andb_false_r, ?orb_false_r.
    + intros j s' J (L' & V' & G'). assert (I : index v k j) by now split.
      assert (Ec : cell v k 0 + j = cell v k j) by (unfold cell; lia). rewrite Ec.
      destruct (getZ_total _ b (cell v k j) (cell_range v (lenZ b) k j IN I)) as (x & X).
      rewrite (V' k j x I X). destruct (Z.ltb_spec k k); [lia|]. rewrite Z.eqb_refl. destruct (Z.ltb_spec j j); [lia|]. cbn [orb andb bind].
      assert (Rg : 0 <= cell v k j < lenZ s') by (rewrite L'; now apply cell_range).
      rewrite setZ_ok by exact Rg. eexists. split; [reflexivity|]. split; [now rewrite lenZ_upd|]. split.
      * intros r c y I' Y. rewrite getZ_upd by exact Rg. destruct (Z.eqb_spec (cell v k j) (cell v r c)) as [Q|Q].
        -- destruct I' as (R & C). destruct (cell_inj v k j r c ltac:(lia) ltac:(lia) Q) as (<- & <-).
           assert (x = y) by congruence. subst y. destruct (Z.ltb_spec k k); [lia|]. rewrite Z.eqb_refl. destruct (Z.ltb_spec j (j + 1)); [reflexivity|lia].
        -- rewrite (V' r c y I' Y). destruct (Z.eqb_spec r k) as [->|N]; [|reflexivity].
           assert (c <> j) by (intros ->; now apply Q). destruct (Z.ltb_spec c j), (Z.ltb_spec c (j + 1)); try lia; reflexivity.
      * intros i Ni. rewrite getZ_upd by exact Rg. destruct (Z.eqb_spec (cell v k j) i) as [Q|Q]; [|now apply G'].
        exfalso. apply (Ni k j I). now symmetry.
    + exists s'. split; [exact E|]. split; [exact L'|]. split; [|exact G'].
      intros r c x I X. rewrite (V' r c x I X). destruct I as (R & C).
      destruct (Z.ltb_spec r k), (Z.ltb_spec r (k + 1)), (Z.eqb_spec r k), (Z.ltb_spec c (v_cols v)); try lia; reflexivity.
  - exists b'. split; [exact E|]. split; [apply only_cells; assumption|].
    intros r c x I. assert (IN' : inside v (lenZ b')) by now rewrite L.
    rewrite !mget_cell by assumption. intros X. rewrite (V r c x I X). destruct I as (R & C). destruct (Z.ltb_spec r (v_rows v)); [reflexivity|lia].
Qed.

(** * Transposed lists of rows *)

Section Rows.
Context {A : Type} (d : A).

Definition turned (n : nat) (rows : list (list A)) : list (list A) :=
  map (fun j => map (fun row => nth j row d) rows) (seq 0 n).

Lemma getZ_nth : forall (B : Type) (l : list B) i e, 0 <= i < lenZ l -> getZ l i = Ok (nth (Z.to_nat i) l e).
Proof.
  intros B l i e H. unfold getZ, lenZ in *. destruct (Z.ltb_spec i 0); [lia|].
  rewrite (nth_error_nth' l e) by lia. reflexivity.
Qed.

Lemma getZ_out : forall (B : Type) (l : list B) i, ~ 0 <= i < lenZ l -> getZ l i = Fault Undef.
Proof.
  intros B l i H. unfold getZ, lenZ in *. destruct (Z.ltb_spec i 0); [reflexivity|].
  rewrite (proj2 (nth_error_None l (Z.to_nat i))) by lia. reflexivity.
Qed.

Lemma turned_nth : forall n rows j, (j < n)%nat -> nth j (turned n rows) [] = map (fun row => nth j row d) rows.
Proof.
  intros n rows j H. unfold turned. rewrite nth_indep with (d' := map (fun row => nth 0%nat row d) rows) by (rewrite map_length, seq_length; exact H).
  rewrite (map_nth (fun j => map (fun row => nth j row d) rows)). now rewrite seq_nth.
Qed.

Lemma turned_len : forall n rows, lenZ (turned n rows) = Z.of_nat n.
Proof. intros n rows. unfold lenZ, turned. now rewrite map_length, seq_length. Qed.

Lemma turned_cell : forall n rows i j, uniform (Z.of_nat n) rows ->
  (row <- getZ rows i ;; getZ row j) = (col <- getZ (turned n rows) j ;; getZ col i).
Proof.
  intros n rows i j U. rewrite uniform_iff in U || unfold uniform in U. rewrite Forall_forall in U.
  destruct (Z_lt_dec i 0) as [Hi|Hi]; [|destruct (Z_lt_dec i (lenZ rows)) as [Hi'|Hi']].
  1, 3: rewrite (getZ_out _ rows i) by lia; cbn [bind];
    (destruct (Z_lt_dec j 0); [rewrite getZ_out by lia; reflexivity|]);
    (destruct (Z_lt_dec j (Z.of_nat n)); [|rewrite getZ_out by (rewrite turned_len; lia); reflexivity]);
    rewrite (getZ_nth _ (turned n rows) j []) by (rewrite turned_len; lia); cbn [bind];
    rewrite turned_nth by lia; rewrite getZ_out; [reflexivity|unfold lenZ in *; rewrite map_length; lia].
  rewrite (getZ_nth _ rows i []) by lia. cbn [bind].
  assert (Hin : In (nth (Z.to_nat i) rows []) rows) by (apply nth_In; unfold lenZ in *; lia).
  pose proof (U _ Hin) as Lr.
  destruct (Z_lt_dec j 0); [rewrite !getZ_out by lia; reflexivity|].
  destruct (Z_lt_dec j (Z.of_nat n)).
  - rewrite (getZ_nth _ _ j d) by lia. rewrite (getZ_nth _ (turned n rows) j []) by (rewrite turned_len; lia). cbn [bind].
    rewrite turned_nth by lia. rewrite (getZ_nth _ _ i (nth (Z.to_nat j) [] d)) by (unfold lenZ in *; rewrite map_length; lia).
    now rewrite (map_nth (fun row => nth (Z.to_nat j) row d)).
  - rewrite getZ_out by lia. rewrite getZ_out by (rewrite turned_len; lia). reflexivity.
Qed.

Lemma turned_transposed : forall n rows, uniform (Z.of_nat n) rows -> transposed rows (turned n rows).
Proof.
  intros n rows U. split; [|split].
  - intros row H. rewrite turned_len. unfold uniform in U. rewrite Forall_forall in U. now apply U.
  - intros col H. unfold turned in H. apply in_map_iff in H as (j & <- & _). unfold lenZ. now rewrite map_length.
  - intros i j. now apply turned_cell.
Qed.
End Rows.

(** * Layers *)

Lemma copy_vec_ok : forall (A : Type) (x : list A), 4 * lenZ x <= int_max -> copy_vec 4 x = Ok x.
Proof.
  intros A x H. pose proof (lenZ_nonneg _ x). unfold copy_vec, vec_init, vcopy, wrap32, int_max in *.
  destruct (Z.leb_spec 0 (lenZ x)); [|lia]. cbn [check bind].
  rewrite (Z.mod_small (lenZ x * 4)) by lia. destruct (Z.leb_spec (lenZ x * 4) 2147483647); [|lia].
  destruct (Z.ltb_spec (lenZ x * 4) 0); [lia|]. destruct (Z.leb_spec (lenZ x * 4) (lenZ x * 4)); [|lia].
  cbn [check bind]. now rewrite Z.eqb_refl.
Qed.

Lemma linear_built : forall (A : Type) (zero : A) junk b v rows bias, holds b v rows ->
  lenZ bias = v_rows v -> fits 4 (v_cols v) (v_rows v) StrideEqualNumCols -> 4 * lenZ bias <= int_max ->
  exists m cols, linear_new zero 4 junk b v bias = Ok (m, bias) /\ owns m cols /\ transposed rows cols /\
    lenZ cols = v_cols v.
Proof.
  intros A zero junk b v rows bias (IN & Lr & U & V) Lb Fi Sm. unfold linear_new. rewrite Lb, Z.eqb_refl. cbn [check bind].
  destruct (@resize_zero A zero 4 junk ltac:(split; reflexivity) (mk_mat None no_view) (v_cols v) (v_rows v) StrideEqualNumCols (or_intror eq_refl) Fi)
    as (m & E & (w & Bw & Iw) & Rm & Cm & _).
  rewrite E. cbn [bind]. rewrite Bw.
  destruct (copy_trans w (m_view m) b v Iw IN Rm Cm) as (w' & E' & (Lw & _) & G). rewrite E'. cbn [bind].
  rewrite copy_vec_ok by exact Sm. cbn [bind].
  assert (Hc : 0 < v_cols v) by apply IN.
  exists (mk_mat (Some w') (m_view m)), (turned zero (Z.to_nat (v_cols v)) rows).
  assert (U' : uniform (Z.of_nat (Z.to_nat (v_cols v))) rows) by (rewrite Z2Nat.id by lia; exact U).
  split; [reflexivity|]. split; [|split; [now apply turned_transposed|rewrite turned_len; lia]].
  exists w'. split; [reflexivity|]. cbn [m_view]. split; [unfold lenZ in *; now rewrite Lw|]. split; [rewrite turned_len; lia|]. split.
  - unfold uniform. rewrite Forall_forall. intros col H. rewrite Cm, <- Lr. apply (proj1 (proj2 (turned_transposed zero _ rows U')) col H).
  - intros r c (R & C). rewrite G by now split. rewrite V by (split; lia). symmetry. rewrite <- turned_cell by exact U'. reflexivity.
Qed.

Lemma linear_refused : forall (A : Type) (zero : A) junk b v bias, lenZ bias <> v_rows v ->
  linear_new zero 4 junk b v bias = Fault Assert.
Proof. intros A zero junk b v bias H. unfold linear_new. destruct (Z.eqb_spec (lenZ bias) (v_rows v)); [lia|reflexivity]. Qed.

Lemma transposed_columns : forall (F : Type) (O : fops F) rows cols, transposed rows cols -> cols <> [] ->
  map (fun j => column O j cols) (seq 0 (Z.to_nat (num_cols cols))) = rows.
Proof.
  intros F O rows cols (Hr & Hc & T) N. destruct cols as [|c0 cols]; [contradiction|]. unfold num_cols.
  rewrite (Hc c0) by now left. unfold lenZ at 1. rewrite Nat2Z.id.
  apply nth_ext with (d := []) (d' := []); [now rewrite map_length, seq_length|]. intros i Hi. rewrite map_length, seq_length in Hi.
  rewrite nth_indep with (d' := column O 0 (c0 :: cols)) by (now rewrite map_length, seq_length).
  rewrite (map_nth (fun j => column O j (c0 :: cols))), seq_nth by exact Hi. cbn [plus].
  assert (Li : lenZ (nth i rows []) = lenZ (c0 :: cols)) by (apply Hr; now apply nth_In).
  apply nth_ext with (d := f_zero O) (d' := f_zero O); unfold column; [rewrite map_length; unfold lenZ in Li; lia|].
  intros j Hj. rewrite map_length in Hj.
  rewrite nth_indep with (d' := nth i [] (f_zero O)) by now rewrite map_length.
  rewrite (map_nth (fun r => nth i r (f_zero O))).
  specialize (T (Z.of_nat i) (Z.of_nat j)).
  rewrite (getZ_nth _ rows _ []) in T by (unfold lenZ; lia). rewrite (getZ_nth _ (c0 :: cols) _ []) in T by (unfold lenZ; lia). cbn [bind] in T.
  rewrite !Nat2Z.id in T.
  assert (Lj : lenZ (nth j (c0 :: cols) []) = lenZ rows) by (apply Hc; now apply nth_In).
  rewrite (getZ_nth _ (nth i rows []) _ (f_zero O)) in T by (rewrite Li; unfold lenZ; lia).
  rewrite (getZ_nth _ (nth j (c0 :: cols) []) _ (f_zero O)) in T by (rewrite Lj; unfold lenZ; lia).
  rewrite !Nat2Z.id in T. congruence.
Qed.

Lemma linear_runs : forall (F : Type) (O : fops F) rows cols bias x old, transposed rows cols ->
  rows <> [] -> cols <> [] -> lenZ bias = lenZ rows -> x <> [] -> uniform (lenZ cols) x ->
  propagate O (Linear cols bias) x old =
    Ok (map (fun row => map2 (f_add O) (map (fun w => f_dot O row w) rows) bias) x).
Proof.
  intros F O rows cols bias x old T Nr Nc Lb Nx U. cbn [propagate]. unfold linear.
  pose proof (transposed_columns F O rows cols T Nc) as TC. destruct T as (Hr & Hc & T).
  assert (Lc : num_cols cols = lenZ rows) by (destruct cols as [|c0 cols]; [contradiction|]; apply Hc; now left).
  assert (Pr : 0 < lenZ rows) by (destruct rows; [contradiction|unfold lenZ; cbn [length]; lia]).
  assert (Px : 0 < lenZ x) by (destruct x; [contradiction|unfold lenZ; cbn [length]; lia]).
  destruct (Z.eqb_spec (lenZ bias) 0); [lia|]. cbn [negb check bind]. rewrite Lc. unfold mat_shape.
  destruct (Z.eqb_spec (lenZ x * lenZ rows) 0); [nia|]. destruct (Z.ltb_spec 0 (lenZ x)); [|lia]. destruct (Z.ltb_spec 0 (lenZ rows)); [|lia].
  cbn [andb check bind]. assert (Ex : num_cols x = lenZ cols) by (destruct x as [|x0 x]; [contradiction|]; now inversion U).
  rewrite Ex, Z.eqb_refl. cbn [check bind]. apply map_rows_total. intros row _. unfold add_vec, mat_row.
  rewrite <- TC, map_map. rewrite Lc. unfold lenZ at 1. rewrite map_length, seq_length, Z2Nat.id by lia. rewrite Lb, Z.eqb_refl. reflexivity.
Qed.

Lemma built_runs : forall (F : Type) (O : fops F) zero junk b v rows bias, holds b v rows ->
  lenZ bias = v_rows v -> fits 4 (v_cols v) (v_rows v) StrideEqualNumCols -> 4 * lenZ bias <= int_max ->
  exists m cols, linear_new zero 4 junk b v bias = Ok (m, bias) /\ owns m cols /\
    forall x old, x <> [] -> uniform (v_cols v) x ->
      propagate O (Linear cols bias) x old =
        Ok (map (fun row => map2 (f_add O) (map (fun w => f_dot O row w) rows) bias) x).
Proof.
  intros F O zero junk b v rows bias H Lb Fi Sm.
  destruct (linear_built F zero junk b v rows bias H Lb Fi Sm) as (m & cols & E & Ow & T & Lc).
  exists m, cols. split; [exact E|]. split; [exact Ow|]. intros x old Nx U. destruct H as (IN & Lr & _ & _). unfold inside in IN.
  apply linear_runs; try assumption; try congruence.
  - intros ->. change (lenZ (@nil (list F))) with 0 in Lr. lia.
  - intros ->. change (lenZ (@nil (list F))) with 0 in Lc. lia.
Qed.

Lemma batch_norm_built : forall (F : Type) (O : fops F) scale offset,
  0 < lenZ scale -> 4 * lenZ scale <= int_max -> 4 * lenZ offset <= int_max ->
  batch_norm_new 4 scale offset = Ok (scale, offset) /\
  forall x old, x <> [] -> uniform (lenZ scale) x ->
    propagate O (BatchNorm scale offset) x old =
      if lenZ offset =? lenZ scale
      then Ok (map (fun row => map2 (f_add O) (map2 (f_mul O) row scale) offset) x)
      else Fault Assert.
Proof.
  intros F O scale offset P S1 S2. unfold batch_norm_new. rewrite !copy_vec_ok by assumption. cbn [bind]. split; [reflexivity|].
  assert (M2 : forall (f : F -> F -> F) a b, lenZ a = lenZ b -> lenZ (map2 f a b) = lenZ b).
  { intros f a. induction a as [|p a IH]; intros [|q b] H; try reflexivity; try discriminate.
    unfold lenZ in *. cbn [map2 length] in *. specialize (IH b ltac:(lia)). lia. }
  intros x old Nx U. cbn [propagate]. unfold batch_norm. destruct (Z.ltb_spec 0 (lenZ scale)); [|lia]. cbn [check bind].
  unfold uniform in U. rewrite Forall_forall in U.
  destruct (Z.eqb_spec (lenZ offset) (lenZ scale)) as [E|E].
  - apply map_rows_total. intros row H'. unfold mul_elements, add_vec. rewrite (U row H'), Z.eqb_refl. cbn [check bind].
    rewrite M2 by now apply U. rewrite E, Z.eqb_refl. reflexivity.
  - destruct x as [|row x]; [contradiction|]. cbn [map_rows]. unfold mul_elements, add_vec. rewrite (U row (or_introl eq_refl)), Z.eqb_refl. cbn [check bind].
    rewrite M2 by (apply U; now left). destruct (Z.eqb_spec (lenZ scale) (lenZ offset)); [lia|reflexivity].
Qed.
