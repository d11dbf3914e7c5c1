(** Storage of matrices. *)
From Coq Require Import ZArith List Bool Lia.
From Verif.Base Require Import Prelude Lemmas.
From Verif.Model Require Import Vector Matrix.
From Verif.Spec Require Import MatrixSpec.
From Verif.Proof Require Import Loop.
Import ListNotations.
Open Scope Z_scope.

Definition cell (v : view) (r c : Z) : Z := v_off v + r * v_stride v + c.

Lemma cell_inj : forall v r c r' c', 0 <= c < v_stride v -> 0 <= c' < v_stride v ->
  cell v r c = cell v r' c' -> r = r' /\ c = c'.
Proof. unfold cell. intros v r c r' c' H H' E. assert (r = r') by nia. subst. split; [reflexivity|lia]. Qed.

Lemma cell_range : forall v n r c, inside v n -> index v r c -> 0 <= cell v r c < n.
Proof. unfold inside, index, cell. intros v n r c H I. assert (r * v_stride v <= (v_rows v - 1) * v_stride v) by nia. nia. Qed.

Lemma int_ok : forall z, -2147483648 <= z <= 2147483647 -> int z = Ok z.
Proof. intros z H. unfold int. now rewrite (proj2 (in_int32_iff z) H). Qed.

Lemma row_int : forall v n r, inside v n -> 0 <= r < v_rows v -> int (r * v_stride v) = Ok (r * v_stride v).
Proof. unfold inside, int_max. intros v n r H I. apply int_ok. assert (r * v_stride v <= (v_rows v - 1) * v_stride v) by nia. nia. Qed.

Lemma place_ok : forall v n r c, inside v n -> index v r c -> place v r c = Ok (cell v r c).
Proof.
  intros v n r c H [R C']. unfold place. destruct (Z.ltb_spec r (v_rows v)); [|lia].
  destruct (Z.ltb_spec c (v_cols v)); [|lia]. cbn [andb check bind]. rewrite (row_int v n) by assumption.
  cbn [bind]. unfold cell. reflexivity.
Qed.

Lemma row_start_ok : forall v n r, inside v n -> 0 <= r < v_rows v -> row_start v r = Ok (cell v r 0).
Proof.
  intros v n r H R. unfold row_start. destruct (Z.ltb_spec r (v_rows v)); [|lia]. cbn [check bind].
  rewrite (row_int v n) by assumption. cbn [bind]. unfold cell. f_equal. lia.
Qed.

Lemma setZ_ok : forall A (b : list A) i x, 0 <= i < lenZ b -> setZ b i x = Ok (upd b (Z.to_nat i) x).
Proof.
  intros A b i x H. unfold setZ. destruct (Z.ltb_spec i 0); [lia|]. unfold lenZ in H.
  destruct (Z.leb_spec (Z.of_nat (length b)) i); [lia|]. reflexivity.
Qed.

Lemma getZ_upd : forall A (b : list A) i j x, 0 <= i < lenZ b ->
  getZ (upd b (Z.to_nat i) x) j = if i =? j then Ok x else getZ b j.
Proof.
  intros A b i j x H. unfold getZ. unfold lenZ in H. destruct (Z.ltb_spec j 0).
  - destruct (Z.eqb_spec i j); [lia|reflexivity].
  - rewrite nth_error_upd. destruct (Z.eqb_spec i j) as [->|N].
    + rewrite Nat.eqb_refl. destruct (Nat.ltb_spec (Z.to_nat j) (length b)); [reflexivity|lia].
    + destruct (Nat.eqb_spec (Z.to_nat i) (Z.to_nat j)); [lia|reflexivity].
Qed.

Section Fill.
Context {A : Type}.
Implicit Types b : list A.

(** Consecutive cells written one after the other. *)
Lemma fill_row : forall (body : list A -> Z -> res (list A)) b0 at_ n (f : Z -> A),
  0 <= at_ -> 0 <= n -> at_ + n <= lenZ b0 ->
  (forall b j, 0 <= j < n -> lenZ b = lenZ b0 -> body b j = setZ b (at_ + j) (f j)) ->
  exists b, for_up 0 n body b0 = Ok b /\ lenZ b = lenZ b0 /\
    (forall j, 0 <= j < n -> getZ b (at_ + j) = Ok (f j)) /\
    (forall i, ~ at_ <= i < at_ + n -> getZ b i = getZ b0 i).
Proof.
  intros body b0 at_ n f P N L H.
  destruct (for_up_inv _ (fun k b => lenZ b = lenZ b0 /\
    (forall j, 0 <= j < k -> getZ b (at_ + j) = Ok (f j)) /\
    (forall i, ~ at_ <= i < at_ + k -> getZ b i = getZ b0 i)) body 0 n b0 N) as [b [E I]].
  - split; [reflexivity|]. split; [lia|]. reflexivity.
  - intros k b K (L' & V & G). exists (upd b (Z.to_nat (at_ + k)) (f k)). split; [|split; [|split]].
    + rewrite H by (auto; lia). apply setZ_ok. lia.
    + rewrite lenZ_upd. exact L'.
    + intros j J. rewrite getZ_upd by lia. destruct (Z.eqb_spec (at_ + k) (at_ + j)) as [Q|Q].
      * replace j with k by lia. reflexivity.
      * apply V. lia.
    + intros i J. rewrite getZ_upd by lia. destruct (Z.eqb_spec (at_ + k) i); [lia|]. apply G. lia.
  - exists b. split; [exact E|exact I].
Qed.

(** Rows written one after the other. *)
Lemma fill : forall (body : list A -> Z -> res (list A)) v b0 (f : Z -> Z -> A), inside v (lenZ b0) ->
  (forall b r, 0 <= r < v_rows v -> lenZ b = lenZ b0 ->
     exists b', body b r = Ok b' /\ lenZ b' = lenZ b /\
       (forall c, 0 <= c < v_cols v -> getZ b' (cell v r c) = Ok (f r c)) /\
       (forall i, ~ cell v r 0 <= i < cell v r 0 + v_cols v -> getZ b' i = getZ b i)) ->
  exists b, for_up 0 (v_rows v) body b0 = Ok b /\ lenZ b = lenZ b0 /\
    (forall r c, index v r c -> getZ b (cell v r c) = Ok (f r c)) /\
    (forall i, (forall r c, index v r c -> i <> cell v r c) -> getZ b i = getZ b0 i).
Proof.
  intros body v b0 f IN H.
  assert (Hi := IN). unfold inside in Hi.
  destruct (for_up_inv _ (fun k b => lenZ b = lenZ b0 /\
    (forall r c, 0 <= r < k -> 0 <= c < v_cols v -> getZ b (cell v r c) = Ok (f r c)) /\
    (forall i, (forall r c, 0 <= r < k -> 0 <= c < v_cols v -> i <> cell v r c) -> getZ b i = getZ b0 i))
    body 0 (v_rows v) b0 ltac:(lia)) as [b [E (L & V & G)]].
  - split; [reflexivity|]. split; [lia|]. reflexivity.
  - intros k b K (L & V & G). destruct (H b k K L) as [b' (E & L' & V' & G')].
    exists b'. split; [exact E|]. split; [congruence|]. split.
    + intros r c R C'. destruct (Z.eq_dec r k) as [->|N]; [now apply V'|].
      rewrite G'; [apply V; lia|]. unfold cell. nia.
    + intros i J. rewrite G'.
      * apply G. intros r c R C'. apply J; lia.
      * intros Q. apply (J k (i - cell v k 0)); [lia|lia|unfold cell; lia].
  - exists b. split; [exact E|]. split; [exact L|]. split.
    + intros r c [R C']. now apply V.
    + intros i J. apply G. intros r c R C'. apply J. now split.
Qed.

Lemma only_cells : forall v b b', inside v (lenZ b) -> lenZ b' = lenZ b ->
  (forall i, (forall r c, index v r c -> i <> cell v r c) -> getZ b' i = getZ b i) -> only v b b'.
Proof.
  intros v b b' IN L G. split; [unfold lenZ in L; lia|]. intros i J. apply G. intros r c I ->.
  apply (J r c I). now apply (place_ok v (lenZ b)).
Qed.

Lemma mget_cell : forall v b r c, inside v (lenZ b) -> index v r c -> mget b v r c = getZ b (cell v r c).
Proof. intros v b r c H I. unfold mget. now rewrite (place_ok v (lenZ b)). Qed.

Lemma mget_total : forall v b r c, inside v (lenZ b) -> index v r c -> exists x, mget b v r c = Ok x.
Proof.
  intros v b r c H I. rewrite mget_cell by assumption. apply getZ_total. now apply cell_range.
Qed.

(** A function that gives the elements. *)
Lemma elements : forall v b (d : A), inside v (lenZ b) ->
  forall r c, index v r c -> getZ b (cell v r c) = Ok (nth (Z.to_nat (cell v r c)) b d).
Proof.
  intros v b d H r c I. pose proof (cell_range v (lenZ b) r c H I) as R.
  pose proof (vget_nth _ b (cell v r c) d R) as V. unfold vget in V.
  destruct (Z.ltb_spec (cell v r c) (lenZ b)); [|lia]. exact V.
Qed.

Lemma write_one : forall b v r c x, inside v (lenZ b) -> index v r c ->
  exists b', mset b v r c x = Ok b' /\ length b' = length b /\ mget b' v r c = Ok x /\
    forall r' c', index v r' c' -> (r', c') <> (r, c) -> mget b' v r' c' = mget b v r' c'.
Proof.
  intros b v r c x H I. pose proof (cell_range v (lenZ b) r c H I) as R.
  exists (upd b (Z.to_nat (cell v r c)) x). split; [|split; [apply upd_length|]].
  - unfold mset. rewrite (place_ok v (lenZ b)) by assumption. cbn [bind]. now apply setZ_ok.
  - assert (H' : inside v (lenZ (upd b (Z.to_nat (cell v r c)) x))) by now rewrite lenZ_upd.
    split.
    + rewrite mget_cell, getZ_upd by assumption. now rewrite Z.eqb_refl.
    + intros r' c' I' N. rewrite !mget_cell, getZ_upd by assumption.
      destruct (Z.eqb_spec (cell v r c) (cell v r' c')) as [E|]; [|reflexivity].
      destruct H as (_ & _ & S & _). unfold index in *.
      apply cell_inj in E; [|lia|lia]. destruct E as [-> ->]. congruence.
Qed.

Lemma copy_plain : forall b v b' v', inside v (lenZ b) -> inside v' (lenZ b') ->
  v_rows v = v_rows v' -> v_cols v = v_cols v' ->
  exists b1, copy_from_mat b v b' v' NoTrans = Ok b1 /\ only v b b1 /\
    forall r c, index v r c -> mget b1 v r c = mget b' v' r c.
Proof.
  intros b v b' v' H H' ER EC.
  destruct b' as [|d b'0] eqn:Eb; [unfold inside, lenZ in H'; cbn in H'; nia|]. rewrite <- Eb in *. clear Eb b'0.
  set (f := fun r c => nth (Z.to_nat (cell v' r c)) b' d).
  assert (I' : forall r c, index v r c -> index v' r c) by (unfold index; intros; rewrite <- ER, <- EC; assumption).
  destruct (fill (fun b i =>
        dst <- row_start v i ;;
        src <- row_start v' i ;;
        _ <- check (v_cols v =? v_cols v') Assert ;;
        copy_cells b dst b' src (v_cols v)) v b f H) as [b1 (E & L & V & G)].
  - intros b2 r R L. rewrite (row_start_ok v (lenZ b)), (row_start_ok v' (lenZ b')) by (assumption || lia). cbn [bind].
    rewrite (proj2 (Z.eqb_eq _ _) EC). cbn [check bind]. unfold copy_cells.
    assert (Hc := H). unfold inside in Hc.
    destruct (fill_row (fun b j => x <- getZ b' (cell v' r 0 + j) ;; setZ b (cell v r 0 + j) x) b2
                (cell v r 0) (v_cols v) (f r)) as [b3 (E3 & L3 & V3 & G3)].
    + unfold cell. nia.
    + lia.
    + pose proof (cell_range v (lenZ b) r (v_cols v - 1) H ltac:(unfold index; lia)) as Q.
      unfold cell in *. lia.
    + intros b4 j J L4. replace (cell v' r 0 + j) with (cell v' r j) by (unfold cell; lia).
      rewrite (elements v' b' d) by (assumption || (apply I'; split; lia)). reflexivity.
    + exists b3. split; [exact E3|]. split; [congruence|]. split; [|exact G3].
      intros c Cc. rewrite <- (V3 c Cc). f_equal. unfold cell. lia.
  - exists b1. split; [|split; [now apply only_cells|]].
    + unfold copy_from_mat.
      assert (Q : (v_rows v =? v_rows v') && (v_cols v =? v_cols v') = true) by (rewrite ER, EC, !Z.eqb_refl; reflexivity).
      rewrite Q. cbn [check bind]. exact E.
    + intros r c I. rewrite !mget_cell by (auto; congruence). rewrite V by assumption.
      symmetry. apply elements; auto.
Qed.

Lemma copy_trans : forall b v b' v', inside v (lenZ b) -> inside v' (lenZ b') ->
  v_rows v = v_cols v' -> v_cols v = v_rows v' ->
  exists b1, copy_from_mat b v b' v' Trans = Ok b1 /\ only v b b1 /\
    forall r c, index v r c -> mget b1 v r c = mget b' v' c r.
Proof.
  intros b v b' v' H H' ER EC.
  destruct b' as [|d b'0] eqn:Eb; [unfold inside, lenZ in H'; cbn in H'; nia|]. rewrite <- Eb in *. clear Eb b'0.
  set (f := fun r c => nth (Z.to_nat (cell v' c r)) b' d).
  assert (I' : forall r c, index v r c -> index v' c r) by (unfold index; intros; rewrite <- ER, <- EC; tauto).
  assert (Hc := H). unfold inside, int_max in Hc. assert (Hc' := H'). unfold inside, int_max in Hc'.
  destruct (fill (fun b i =>
        for_up 0 (v_cols v) (fun b j =>
          k <- int (i * v_stride v) ;; k <- int (k + j) ;;
          k' <- int (j * v_stride v') ;; k' <- int (k' + i) ;;
          x <- getZ b' (v_off v' + k') ;;
          setZ b (v_off v + k) x) b) v b f H) as [b1 (E & L & V & G)].
  - intros b2 r R L.
    destruct (fill_row (fun b j => k <- int (r * v_stride v) ;; k <- int (k + j) ;;
          k' <- int (j * v_stride v') ;; k' <- int (k' + r) ;;
          x <- getZ b' (v_off v' + k') ;; setZ b (v_off v + k) x) b2
                (cell v r 0) (v_cols v) (f r)) as [b3 (E3 & L3 & V3 & G3)].
    + unfold cell. nia.
    + lia.
    + pose proof (cell_range v (lenZ b) r (v_cols v - 1) H ltac:(unfold index; lia)) as Q.
      unfold cell in *. lia.
    + intros b4 j J L4.
      assert (r * v_stride v <= (v_rows v - 1) * v_stride v) by nia.
      assert (j * v_stride v' <= (v_rows v' - 1) * v_stride v') by nia.
      rewrite (row_int v (lenZ b)) by (assumption || lia). cbn [bind].
      rewrite (int_ok (r * v_stride v + j)) by nia. cbn [bind].
      rewrite (row_int v' (lenZ b')) by (assumption || lia). cbn [bind].
      rewrite (int_ok (j * v_stride v' + r)) by nia. cbn [bind].
      replace (v_off v' + (j * v_stride v' + r)) with (cell v' j r) by (unfold cell; lia).
      rewrite (elements v' b' d) by (assumption || (apply I'; split; lia)). cbn [bind].
      unfold f. f_equal. unfold cell. lia.
    + exists b3. split; [exact E3|]. split; [congruence|]. split; [|exact G3].
      intros c Cc. rewrite <- (V3 c Cc). f_equal. unfold cell. lia.
  - exists b1. split; [|split; [now apply only_cells|]].
    + unfold copy_from_mat. rewrite <- ER, <- EC, !Z.eqb_refl. cbn [andb check bind]. exact E.
    + intros r c I. rewrite !mget_cell by (auto; congruence). rewrite V by assumption.
      symmetry. apply elements; auto.
Qed.

Lemma transpose_square : forall b v, inside v (lenZ b) -> v_rows v = v_cols v ->
  exists b1, transpose b v = Ok b1 /\ only v b b1 /\
    forall r c, index v r c -> mget b1 v r c = mget b v c r.
Proof.
  intros b v H ER. assert (Hc := H). unfold inside, int_max in Hc.
  (* The pairs already swapped before the step (i, j). *)
  set (done := fun i j r c => let hi := Z.max r c in let lo := Z.min r c in
                lo < hi /\ (hi < i \/ hi = i /\ lo < j)).
  set (inv := fun i j b1 => lenZ b1 = lenZ b /\
        (forall r c, index v r c -> (done i j r c -> getZ b1 (cell v r c) = getZ b (cell v c r)) /\
                                    (~ done i j r c -> getZ b1 (cell v r c) = getZ b (cell v r c))) /\
        (forall k, (forall r c, index v r c -> k <> cell v r c) -> getZ b1 k = getZ b k)).
  destruct (for_up_inv _ (fun i => inv i 0) (fun b i => for_up 0 i (fun b j =>
      p <- place v i j ;; q <- place v j i ;; x <- getZ b p ;; y <- getZ b q ;;
      b <- setZ b p y ;; setZ b q x) b) 0 (v_rows v) b ltac:(lia)) as [b1 [E (L & V & G)]].
  - split; [reflexivity|]. split; [|reflexivity]. intros r c [R C']. split; [|reflexivity].
    unfold done. intros Q. lia.
  - intros i b1 I J1.
    destruct (for_up_inv _ (fun j => inv i j) (fun b j =>
      p <- place v i j ;; q <- place v j i ;; x <- getZ b p ;; y <- getZ b q ;;
      b <- setZ b p y ;; setZ b q x) 0 i b1 ltac:(lia) J1) as [b2 [E2 J2]].
    + intros j b2 J (L & V & G).
      assert (Iij : index v i j) by (unfold index; lia). assert (Iji : index v j i) by (unfold index; lia).
      pose proof (cell_range v (lenZ b) i j H Iij) as Rij. pose proof (cell_range v (lenZ b) j i H Iji) as Rji.
      destruct (getZ_total _ b (cell v i j) Rij) as [x Ex]. destruct (getZ_total _ b (cell v j i) Rji) as [y Ey].
      destruct (V i j Iij) as [_ Vij]. destruct (V j i Iji) as [_ Vji].
      rewrite Ex in Vij. rewrite Ey in Vji.
      specialize (Vij ltac:(unfold done; lia)). specialize (Vji ltac:(unfold done; lia)).
      exists (upd (upd b2 (Z.to_nat (cell v i j)) y) (Z.to_nat (cell v j i)) x). split.
      * rewrite !(place_ok v (lenZ b)) by assumption. cbn [bind]. rewrite Vij, Vji. cbn [bind].
        rewrite setZ_ok by lia. cbn [bind]. apply setZ_ok. rewrite lenZ_upd. lia.
      * split; [now rewrite !lenZ_upd|]. split.
        -- intros r c Irc. rewrite !getZ_upd by (rewrite ?lenZ_upd; lia).
           unfold index in *.
           destruct (Z.eqb_spec (cell v j i) (cell v r c)) as [Q|Q].
           ++ apply cell_inj in Q; [|lia|lia]. destruct Q as [<- <-]. rewrite Ex. split; [reflexivity|].
              unfold done. intros Z0. exfalso. apply Z0. lia.
           ++ destruct (Z.eqb_spec (cell v i j) (cell v r c)) as [Q'|Q'].
              ** apply cell_inj in Q'; [|lia|lia]. destruct Q' as [<- <-]. rewrite Ey. split; [reflexivity|].
                 unfold done. intros Z0. exfalso. apply Z0. lia.
              ** assert (N1 : ~ (r = j /\ c = i)) by (intros [-> ->]; now apply Q).
                 assert (N2 : ~ (r = i /\ c = j)) by (intros [-> ->]; now apply Q').
                 destruct (V r c Irc) as [V1 V2]. split; intros Dn; [apply V1|apply V2]; unfold done in *; lia.
        -- intros k K. rewrite !getZ_upd by (rewrite ?lenZ_upd; lia).
           destruct (Z.eqb_spec (cell v j i) k) as [Q|_]; [exfalso; now apply (K j i Iji)|].
           destruct (Z.eqb_spec (cell v i j) k) as [Q|_]; [exfalso; now apply (K i j Iij)|]. now apply G.
    + exists b2. split; [exact E2|]. destruct J2 as (L & V & G). split; [exact L|]. split; [|exact G].
      intros r c Irc. destruct (V r c Irc) as [V1 V2]. unfold index in *.
      split; intros Dn; [apply V1|apply V2]; unfold done in *; lia.
  - exists b1. split; [|split; [now apply only_cells|]].
    + unfold transpose. rewrite (proj2 (Z.eqb_eq _ _) ER). cbn [check bind]. exact E.
    + intros r c I. assert (I' : index v c r) by (unfold index in *; lia).
      rewrite !mget_cell by (auto; congruence). destruct (V r c I) as [V1 V2]. unfold index in I.
      destruct (Z.eq_dec r c) as [->|N]; [apply V2; unfold done; lia|apply V1; unfold done; lia].
Qed.

Variable zero : A.

Lemma set_zero_cells : forall b v, inside v (lenZ b) ->
  exists b1, set_zero zero (mk_mat (Some b) v) = Ok (mk_mat (Some b1) v) /\ only v b b1 /\
    forall r c, index v r c -> mget b1 v r c = Ok zero.
Proof.
  intros b v H. assert (Hc := H). unfold inside, int_max in Hc. unfold set_zero. cbn [m_view m_block].
  destruct (Z.eqb_spec (v_cols v) (v_stride v)) as [ES|NS].
  - destruct (fill_row (fun b j => setZ b (v_off v + j) zero) b (v_off v) (v_rows v * v_cols v) (fun _ => zero))
      as [b1 (E & L & V & G)]; [lia|nia|nia|reflexivity|].
    exists b1. unfold zero_cells. rewrite E. cbn [bind]. split; [reflexivity|]. split.
    + apply only_cells; auto. intros i J. apply G. intros Q.
      apply (J ((i - v_off v) / v_cols v) ((i - v_off v) mod v_cols v)).
      * unfold index. pose proof (Z.mod_pos_bound (i - v_off v) (v_cols v) ltac:(lia)).
        split; [|lia]. split; [apply Z.div_pos; lia|]. apply Z.div_lt_upper_bound; [lia|nia].
      * unfold cell. rewrite <- ES. pose proof (Z.div_mod (i - v_off v) (v_cols v) ltac:(lia)). nia.
    + intros r c I. rewrite mget_cell by (auto; congruence). unfold index in I.
      replace (cell v r c) with (v_off v + (r * v_stride v + c)) by (unfold cell; lia).
      apply V. rewrite <- ES. nia.
  - destruct (fill (fun b r => i <- int (r * v_stride v) ;; zero_cells zero b (v_off v + i) (v_cols v)) v b
                (fun _ _ => zero) H) as [b1 (E & L & V & G)].
    + intros b2 r R L. rewrite (row_int v (lenZ b)) by assumption. cbn [bind]. unfold zero_cells.
      destruct (fill_row (fun b j => setZ b (v_off v + r * v_stride v + j) zero) b2 (v_off v + r * v_stride v)
                  (v_cols v) (fun _ => zero)) as [b3 (E3 & L3 & V3 & G3)].
      * nia.
      * lia.
      * pose proof (cell_range v (lenZ b) r (v_cols v - 1) H ltac:(unfold index; lia)) as Q.
        unfold cell in Q. lia.
      * reflexivity.
      * exists b3. split; [exact E3|]. split; [exact L3|]. split.
        -- intros c Cc. unfold cell. now apply V3.
        -- intros i J. apply G3. unfold cell in J. lia.
    + exists b1. rewrite E. cbn [bind]. split; [reflexivity|]. split; [now apply only_cells|].
      intros r c I. rewrite mget_cell by (auto; congruence). now apply V.
Qed.

Lemma sub_matrix_inside : forall v n ro r co c, inside v n ->
  0 <= ro -> 0 <= co -> 0 < r -> 0 < c -> ro + r <= v_rows v -> co + c <= v_cols v ->
  exists w, sub_matrix v ro r co c = Ok w /\ inside w n /\ v_rows w = r /\ v_cols w = c /\
    forall i j, cell w i j = cell v (ro + i) (co + j).
Proof.
  intros v n ro r co c H P P' R Cc L L'. assert (Hc := H). unfold inside, int_max in Hc.
  exists (mk_view (v_off v + co + ro * v_stride v) r c (v_stride v)). split.
  - unfold sub_matrix. destruct (Z.eqb_spec r 0); [lia|]. destruct (Z.eqb_spec c 0); [lia|]. cbn [orb].
    destruct (Z.ltb_spec ro (v_rows v)); [|lia]. destruct (Z.ltb_spec co (v_cols v)); [|lia].
    destruct (Z.leb_spec r (v_rows v - ro)); [|lia]. destruct (Z.leb_spec c (v_cols v - co)); [|lia]. reflexivity.
  - unfold inside, int_max, cell. cbn. split; [|split; [reflexivity|split; [reflexivity|intros; lia]]].
    assert ((r - 1) * v_stride v + ro * v_stride v <= (v_rows v - 1) * v_stride v) by nia.
    assert (0 <= ro * v_stride v) by nia. assert (0 <= (r - 1) * v_stride v) by nia. lia.
Qed.

End Fill.
