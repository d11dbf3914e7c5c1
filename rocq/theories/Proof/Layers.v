(** What each layer computes. *)
From Coq Require Import ZArith List Bool Lia.
From Verif.Base Require Import Prelude Lemmas.
From Verif.Model Require Import Arith Vector Fbank Nnet.
From Verif.Spec Require Import AudioSpec AmSpec FbankSpec NnetSpec.
From Verif.Proof Require Import Loop Windows Am FbankTotal FbankFrame Nnet ZOps.
Import ListNotations.
Open Scope Z_scope.

Lemma nth_map : forall A B (f : A -> B) l i da db, (i < length l)%nat -> nth i (map f l) db = f (nth i l da).
Proof.
  intros A B f l. induction l as [|x l IH]; intros i da db H; [cbn in H; lia|].
  destruct i; cbn [map nth]; [reflexivity|]. apply IH. cbn in H. lia.
Qed.

Lemma uniform_nth : forall F d (x : list (list F)) i, uniform d x -> (i < length x)%nat -> lenZ (nth i x []) = d.
Proof. intros F d x i U H. unfold uniform in U. rewrite Forall_forall in U. apply U. apply nth_In. assumption. Qed.

Lemma nth_firstn_lt : forall A (l : list A) n i d, (i < n)%nat -> nth i (firstn n l) d = nth i l d.
Proof.
  intros A l. induction l as [|x l IH]; intros n i d H; [rewrite firstn_nil; reflexivity|].
  destruct n; [lia|]. destruct i; cbn [firstn nth]; [reflexivity|]. apply IH. lia.
Qed.

Lemma nth_skipn_add : forall A (l : list A) n i d, nth i (skipn n l) d = nth (n + i) l d.
Proof.
  intros A l. induction l as [|x l IH]; intros n i d; [rewrite skipn_nil; destruct i, n; reflexivity|].
  destruct n; cbn [skipn Nat.add nth]; [reflexivity|]. apply IH.
Qed.

Section Float.
Context {F : Type} (O : fops F).

Lemma linear_formula : forall (W : matrix F) b x old n k d,
  uniform k W -> lenZ W = n -> uniform n x -> lenZ b = k -> 0 < n -> 0 < k -> x <> [] ->
  exists y, propagate O (Linear W b) x old = Ok y /\ length y = length x /\ uniform k y /\
    forall i j, (i < length x)%nat -> (j < length b)%nat ->
      nth j (nth i y []) d = f_add O (f_dot O (nth i x []) (map (fun r => nth j r d) W)) (nth j b d).
Proof.
  intros W b x old n k d UW LW UX LB N K NX.
  assert (NW : W <> []) by (intros ->; cbn in LW; lia).
  assert (CW : num_cols W = k) by (apply num_cols_uniform; assumption).
  assert (LM : forall r, length (mat_row O W r) = length b).
  { intros r. unfold mat_row. rewrite map_length, seq_length, CW. unfold lenZ in LB. lia. }
  exists (map (fun r => map2 (f_add O) (mat_row O W r) b) x).
  split; [|split; [apply map_length|split]].
  - apply (row_layer_char O (Linear W b) n x); cbn [well_formed row_check row_fun]; auto.
    split; [lia|]. apply map_rows_ok. apply map_rows_total. intros r _. unfold add_vec.
    unfold lenZ at 1 2. rewrite LM, Z.eqb_refl. reflexivity.
  - unfold uniform. apply Forall_forall. intros r I. apply in_map_iff in I. destruct I as [r0 [<- _]].
    unfold lenZ in *. rewrite map2_length by apply LM. rewrite LM. assumption.
  - intros i j Hi Hj. rewrite (nth_map _ _ _ x i [] []) by assumption.
    rewrite (map2_nth _ _ _ _ _ _ j d d d) by (rewrite LM; auto). f_equal.
    unfold mat_row. rewrite (nth_map _ _ _ _ j 0%nat d) by (rewrite seq_length, CW; unfold lenZ in LB; lia).
    rewrite seq_nth by (rewrite CW; unfold lenZ in LB; lia). f_equal. unfold column. cbn [Nat.add].
    apply map_ext_in. intros r I. apply nth_indep. unfold uniform in UW. rewrite Forall_forall in UW.
    specialize (UW r I). unfold lenZ in *. lia.
Qed.

Lemma nth_concat : forall A c (ls : list (list A)) k j d, Forall (fun l => length l = c) ls ->
  (k < length ls)%nat -> (j < c)%nat -> nth (k * c + j) (concat ls) d = nth j (nth k ls []) d.
Proof.
  intros A c ls. induction ls as [|l ls IH]; intros k j d U H J; [cbn in H; lia|].
  inversion U as [|? ? L U']; subst. destruct k; cbn [concat nth].
  - rewrite app_nth1 by (cbn [Nat.mul Nat.add]; lia). reflexivity.
  - rewrite app_nth2 by lia. replace (S k * length l + j - length l)%nat with (k * length l + j)%nat by lia.
    apply IH; auto. cbn in H. lia.
Qed.

Lemma splice_formula : forall idx (x : matrix F) old c d,
  idx <> [] -> uniform c x -> x <> [] -> 0 < c ->
  exists y, propagate O (Splice idx) x old = Ok y /\ length y = length x /\ uniform (lenZ idx * c) y /\
    forall i k j, (i < length x)%nat -> (k < length idx)%nat -> (j < Z.to_nat c)%nat ->
      nth (k * Z.to_nat c + j) (nth i y []) d =
      nth j (nth (Z.to_nat (Z.min (Z.max (Z.of_nat i + nth k idx 0) 0) (lenZ x - 1))) x []) d.
Proof.
  intros idx x old c d NI U NX C.
  assert (LX : 0 < lenZ x) by (unfold lenZ; destruct x; [congruence|cbn [length]; lia]).
  assert (LI : 0 < lenZ idx) by (unfold lenZ; destruct idx; [congruence|cbn [length]; lia]).
  set (row := fun i => concat (map (fun c => nth (Z.to_nat (clamp (lenZ x) (i + c))) x []) idx)).
  assert (B : forall z, (Z.to_nat (clamp (lenZ x) z) < length x)%nat).
  { intros z. pose proof (clamp_bounds (lenZ x) z LX). unfold lenZ in *. lia. }
  exists (map row (seqZ 0 (length x))).
  assert (E : forall i, (i < length x)%nat -> nth i (map row (seqZ 0 (length x))) [] = row (Z.of_nat i)).
  { intros i H. rewrite (nth_map _ _ _ _ i 0 []) by (rewrite seqZ_length; assumption). f_equal.
    replace (length x) with (i + (length x - i))%nat by lia. rewrite seqZ_app.
    rewrite app_nth2; rewrite seqZ_length; [|lia]. rewrite Nat.sub_diag.
    destruct (length x - i)%nat eqn:E; [lia|]. cbn. lia. }
  split; [|split; [rewrite map_length, seqZ_length; reflexivity|split]].
  - cbn [propagate]. unfold splice. destruct (Z.eqb_spec (lenZ idx) 0); [lia|]. cbn [negb check bind].
    rewrite (num_cols_uniform c x U NX).
    destruct (Z.eqb_spec (lenZ x) 0); [lia|]. destruct (Z.eqb_spec c 0); [lia|]. cbn [orb].
    unfold mat_shape. destruct (Z.eqb_spec (lenZ x * (lenZ idx * c)) 0); [nia|].
    destruct (Z.ltb_spec 0 (lenZ x)); [|lia]. destruct (Z.ltb_spec 0 (lenZ idx * c)); [|nia].
    cbn [andb check bind]. apply map_rows_total. intros r _. apply (splice_row_ok c); assumption.
  - unfold uniform. apply Forall_forall. intros r I. apply in_map_iff in I. destruct I as [z [<- _]].
    unfold row. apply (context_row_dim c x (fun c => Z.to_nat (clamp (lenZ x) (z + c)))); auto.
  - intros i k j Hi Hk Hj. rewrite E by assumption. unfold row.
    rewrite nth_concat; [| |rewrite map_length; assumption|assumption].
    + rewrite (nth_map _ _ _ idx k 0 []) by assumption. f_equal. f_equal. f_equal.
      unfold clamp. destruct (Z.ltb_spec (Z.of_nat i + nth k idx 0) 0).
      * destruct (Z.gtb_spec 0 (lenZ x - 1)); lia.
      * destruct (Z.gtb_spec (Z.of_nat i + nth k idx 0) (lenZ x - 1)); lia.
    + apply Forall_forall. intros r I. apply in_map_iff in I. destruct I as [z [<- _]].
      pose proof (uniform_nth _ c x _ U (B (Z.of_nat i + z))) as P. unfold lenZ in P at 1. lia.
Qed.

Lemma narrow_formula : forall l r (x : matrix F) old c,
  0 <= l -> 0 <= r -> uniform c x -> 0 < c ->
  exists y, propagate O (Narrow l r) x old = Ok y /\
    (lenZ x <= l + r -> y = x) /\
    (l + r < lenZ x -> lenZ y = lenZ x - l - r /\
       forall i, (i < length y)%nat -> nth i y [] = nth (Z.to_nat l + i) x []).
Proof.
  intros l r x old c L R U C. cbn [propagate]. unfold narrow. destruct (Z.leb_spec 0 l); [|lia]. cbn [check bind].
  destruct (Z.leb_spec (lenZ x) (l + r)).
  - exists x. split; [reflexivity|]. split; [reflexivity|lia].
  - assert (NX : x <> []) by (intros ->; unfold lenZ in *; cbn [length] in *; lia).
    rewrite (num_cols_uniform c x U NX). unfold mat_shape.
    destruct (Z.eqb_spec ((lenZ x - l - r) * c) 0); [nia|].
    destruct (Z.ltb_spec 0 (lenZ x - l - r)); [|lia]. destruct (Z.ltb_spec 0 c); [|lia]. cbn [andb check bind].
    destruct (Z.ltb_spec l (lenZ x)); [|lia]. destruct (Z.leb_spec (lenZ x - l - r) (lenZ x - l)); [|lia].
    cbn [andb check bind]. eexists. split; [reflexivity|]. split; [lia|]. intros _.
    assert (LY : length (firstn (Z.to_nat (lenZ x - l - r)) (skipn (Z.to_nat l) x)) = Z.to_nat (lenZ x - l - r)).
    { rewrite firstn_length, skipn_length. unfold lenZ in *. lia. }
    split; [unfold lenZ at 1; rewrite LY; lia|]. intros i Hi. rewrite LY in Hi.
    rewrite nth_firstn_lt by assumption. apply nth_skipn_add.
Qed.

(** Row [i] of the output is a function of row [i] of the input. *)
Lemma row_wise : forall l (g : list F -> list F) x old c, well_formed (Single l) -> uniform c x -> 0 < c -> x <> [] ->
  row_check l c -> (forall r, lenZ r = c -> row_fun O l r = Ok (g r)) ->
  propagate O l x old = Ok (map g x).
Proof.
  intros l g x old c WF U C NX RC H. apply (row_layer_char O l c x); auto. split; [assumption|].
  apply map_rows_ok. apply map_rows_total. intros r I. apply H. unfold uniform in U. rewrite Forall_forall in U. auto.
Qed.

Lemma batch_norm_formula : forall s o (x : matrix F) old c d, lenZ s = c -> lenZ o = c -> uniform c x -> 0 < c -> x <> [] ->
  exists y, propagate O (BatchNorm s o) x old = Ok y /\ length y = length x /\ uniform c y /\
    forall i j, (i < length x)%nat -> (j < Z.to_nat c)%nat ->
      nth j (nth i y []) d = f_add O (f_mul O (nth j (nth i x []) d) (nth j s d)) (nth j o d).
Proof.
  intros s o x old c d LS LO U C NX.
  exists (map (fun r => map2 (f_add O) (map2 (f_mul O) r s) o) x).
  assert (L1 : forall r, lenZ r = c -> length (map2 (f_mul O) r s) = Z.to_nat c).
  { intros r L. rewrite map2_length; unfold lenZ in *; lia. }
  split; [|split; [apply map_length|split]].
  - apply (row_wise _ _ _ _ c); cbn [well_formed row_check row_fun]; auto; [lia|].
    intros r L. unfold mul_elements, add_vec. rewrite LS, L, Z.eqb_refl. cbn [check bind].
    unfold lenZ at 1. rewrite (L1 r L). replace (Z.of_nat (Z.to_nat c) =? lenZ o) with true by (symmetry; apply Z.eqb_eq; lia).
    reflexivity.
  - unfold uniform in *. rewrite Forall_forall in *. intros r I. apply in_map_iff in I. destruct I as [r0 [<- I]].
    specialize (U r0 I). unfold lenZ. rewrite map2_length; rewrite (L1 r0 U); unfold lenZ in *; lia.
  - intros i j Hi Hj. rewrite (nth_map _ _ _ x i [] []) by assumption.
    pose proof (uniform_nth _ c x i U Hi) as L. pose proof (L1 _ L) as L2.
    rewrite (map2_nth _ _ _ _ _ _ j d d d) by (rewrite L2; unfold lenZ in *; lia). f_equal.
    apply map2_nth; unfold lenZ in *; lia.
Qed.

Lemma relu_formula : forall (x : matrix F) old d,
  exists y, propagate O ReLU x old = Ok y /\ length y = length x /\
    forall i, (i < length x)%nat -> length (nth i y []) = length (nth i x []) /\
    forall j, (j < length (nth i x []))%nat ->
      nth j (nth i y []) d =
      if f_lt O (nth j (nth i x []) d) (f_zero O) then f_zero O else nth j (nth i x []) d.
Proof.
  intros x old d. exists (map (relu_row O) x). split; [reflexivity|]. split; [apply map_length|].
  intros i H. rewrite (nth_map _ _ _ x i [] []) by assumption. unfold relu_row. split; [apply map_length|].
  intros j Hj. rewrite (nth_map _ _ _ _ j d d) by assumption. reflexivity.
Qed.

Lemma normalize_formula : forall (x : matrix F) old d,
  exists y, propagate O Normalize x old = Ok y /\ length y = length x /\
    forall i, (i < length x)%nat -> length (nth i y []) = length (nth i x []) /\
    forall j, (j < length (nth i x []))%nat ->
      nth j (nth i y []) d =
      f_mul O (nth j (nth i x []) d)
              (f_norm O (f_int O (lenZ (nth i x []))) (dot_product O (nth i x []) (nth i x []))).
Proof.
  intros x old d.
  set (g := fun row => map (fun e => f_mul O e (f_norm O (f_int O (lenZ row)) (dot_product O row row))) row).
  exists (map g x). split; [|split; [apply map_length|]].
  - cbn [propagate]. apply map_rows_total. intros r _. unfold normalize_row.
    destruct (vec_vec_ok O r r eq_refl) as [s E]. rewrite E. cbn [bind]. apply vec_vec_fold in E. destruct E as [_ ->].
    reflexivity.
  - intros i H. rewrite (nth_map _ _ _ x i [] []) by assumption. unfold g. split; [apply map_length|].
    intros j Hj. rewrite (nth_map _ _ _ _ j d d) by assumption. reflexivity.
Qed.

Lemma softmax_formula : forall (x : matrix F) old d,
  exists y, propagate O Softmax x old = Ok y /\ length y = length x /\
    forall i, (i < length x)%nat -> length (nth i y []) = length (nth i x []) /\
    forall j, (j < length (nth i x []))%nat ->
      nth j (nth i y []) d =
      f_div O (f_expf O (nth j (nth i x []) d)) (fold_left (f_add O) (map (f_expf O) (nth i x [])) (f_zero O)).
Proof.
  intros x old d. exists (map (apply_softmax O) x). split; [reflexivity|]. split; [apply map_length|].
  intros i H. rewrite (nth_map _ _ _ x i [] []) by assumption. unfold apply_softmax.
  split; [rewrite !map_length; reflexivity|].
  intros j Hj. rewrite map_map. rewrite (nth_map _ _ _ _ j d d) by assumption. reflexivity.
Qed.

Lemma fold_left_map : forall A B (f : B -> B -> B) (g : A -> B) l s,
  fold_left f (map g l) s = fold_left (fun s x => f s (g x)) l s.
Proof. intros A B f g l. induction l; intros s; cbn [map fold_left]; auto. Qed.

Lemma log_softmax_formula : forall (x : matrix F) old d,
  exists y, propagate O LogSoftmax x old = Ok y /\ length y = length x /\
    forall i, (i < length x)%nat -> length (nth i y []) = length (nth i x []) /\
    forall j, (j < length (nth i x []))%nat ->
      nth j (nth i y []) d =
      f_sub O (nth j (nth i x []) d)
        (f_log O (fold_left (f_add O) (map (f_exp O) (nth i x [])) (f_zero O))).
Proof.
  intros x old d. exists (map (apply_log_softmax O) x). split; [reflexivity|]. split; [apply map_length|].
  intros i H. rewrite (nth_map _ _ _ x i [] []) by assumption. unfold apply_log_softmax.
  split; [apply map_length|].
  intros j Hj. rewrite (nth_map _ _ _ _ j d d) by assumption. rewrite fold_left_map. reflexivity.
Qed.

(** The network applies its layers in order. *)
Lemma propagate_shape : forall l (x y : matrix F) old c, uniform c x -> 0 < c -> x <> [] ->
  propagate O l x old = Ok y -> propagate O l x [] = Ok y /\ y <> [] /\ exists c', 0 < c' /\ uniform c' y.
Proof.
  intros l x y old c U C NX H.
  assert (LX : 0 < lenZ x) by (unfold lenZ; destruct x; [congruence|cbn [length]; lia]).
  destruct l as [W b| | | |idx|s o| |a z];
  [ set (l := Linear W b) in * | set (l := @ReLU F) in * | set (l := @Normalize F) in * | set (l := @Softmax F) in *
  | | set (l := BatchNorm s o) in * | set (l := @LogSoftmax F) in * | ];
  try (assert (WF : well_formed (Single l)) by exact I;
    split; [exact H|]; apply (row_layer_char O l c x old y WF U NX C) in H; destruct H as [RC R];
    split; [intros ->; inversion R; subst; congruence|];
    exists (out_dim (Single l) c);
    split; [cbn [out_dim l row_check] in *; lia|];
    assert (U2 : forall r r', In r x -> row_fun O l r = Ok r' -> lenZ r' = out_dim (Single l) c)
      by (intros r r' Ir E; apply (row_fun_dim O l c r r' WF); [unfold uniform in U; rewrite Forall_forall in U; auto|assumption]);
    clear - R U2; induction R; constructor;
      [apply (U2 x); [now left|assumption] | apply IHR; intros; apply (U2 r); [now right|assumption]]).
  - destruct (Z.eq_dec (lenZ idx) 0) as [E|E].
    { cbn [propagate] in H. unfold splice in H. rewrite E in H. discriminate. }
    assert (NI : idx <> []) by (intros ->; apply E; reflexivity).
    destruct (splice_formula idx x old c (f_zero O) NI U NX C) as [y1 [E1 [L1 [U1 _]]]].
    destruct (splice_formula idx x [] c (f_zero O) NI U NX C) as [y2 [E2 [L2 [U2 _]]]].
    assert (Y : y = y1) by congruence. subst y.
    assert (E3 : propagate O (Splice idx) x old = propagate O (Splice idx) x []).
    { cbn [propagate]. unfold splice. rewrite (num_cols_uniform c x U NX).
      destruct (Z.eqb_spec (lenZ x) 0); [lia|]. destruct (Z.eqb_spec c 0); [lia|]. reflexivity. }
    split; [congruence|]. split; [intros ->; destruct x; [congruence|discriminate]|].
    exists (lenZ idx * c). split; [|assumption]. pose proof (lenZ_nonneg _ idx). nia.
  - split; [exact H|]. cbn [propagate] in H. unfold narrow in H.
    destruct (0 <=? a); [|discriminate]. cbn [check bind] in H.
    destruct (Z.leb_spec (lenZ x) (a + z)); [injection H as <-; split; [assumption|]; exists c; auto|].
    rewrite (num_cols_uniform c x U NX) in H. unfold mat_shape in H.
    destruct (Z.eqb_spec ((lenZ x - a - z) * c) 0).
    { destruct (Z.eqb_spec c 0); [lia|]. rewrite andb_false_r in H. discriminate. }
    destruct (Z.ltb_spec 0 (lenZ x - a - z)); [|discriminate]. destruct (Z.ltb_spec 0 c); [|lia].
    cbn [andb check bind] in H. destruct (Z.ltb_spec a (lenZ x)); [|discriminate].
    destruct (Z.leb_spec (lenZ x - a - z) (lenZ x - a)); [|discriminate]. cbn [andb check bind] in H.
    injection H as <-. split.
    + intros E. apply (f_equal (@length _)) in E. rewrite firstn_length, skipn_length in E. cbn [length] in E.
      unfold lenZ in *. lia.
    + exists c. split; [assumption|]. apply uniform_firstn, uniform_skipn. assumption.
Qed.

Lemma layers_in_order : forall ls (x z : matrix F) c, uniform c x -> 0 < c -> x <> [] ->
  (nnet_propagate O ls x = Ok z <-> in_order (fun l m => propagate O l m []) ls x z).
Proof.
  intros ls x z c U C NX. unfold nnet_propagate. generalize (@nil (list F)) at 1. revert x c U C NX.
  induction ls as [|l ls IH]; intros x c U C NX old; cbn [propagate_all in_order].
  - split; [intros H; injection H as <-; reflexivity|intros ->; reflexivity].
  - split.
    + intros H. destruct (propagate O l x old) as [y|] eqn:E; [|discriminate]. cbn [bind] in H.
      destruct (propagate_shape l x y old c U C NX E) as [E2 [NY [c' [C' U']]]].
      exists y. split; [assumption|]. apply (IH y c' U' C' NY) in H. assumption.
    + intros [y [E H]]. destruct (propagate_shape l x y [] c U C NX E) as [_ [NY [c' [C' U']]]].
      assert (E3 : propagate O l x old = Ok y).
      { destruct l; try exact E. cbn [propagate] in *. unfold splice in *. rewrite (num_cols_uniform c x U NX) in *.
        destruct (lenZ indices =? 0); [discriminate|]. cbn [negb check bind] in *.
        destruct (Z.eqb_spec (lenZ x) 0); [unfold lenZ in *; destruct x; [congruence|cbn [length] in *; lia]|].
        destruct (Z.eqb_spec c 0); [lia|]. exact E. }
      rewrite E3. cbn [bind]. apply (IH y c' U' C' NY). assumption.
Qed.

End Float.
