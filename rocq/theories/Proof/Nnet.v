(** Converted networks have a bounded receptive field. *)
From Coq Require Import ZArith List Bool Lia.
From Verif.Base Require Import Prelude Lemmas.
From Verif.Model Require Import Arith Vector Fbank Nnet.
From Verif.Spec Require Import AudioSpec AmSpec NnetSpec.
From Verif.Proof Require Import Loop Windows Am FbankTotal.
Import ListNotations.
Open Scope Z_scope.

Lemma windows_rows : forall A (x : list A), windows 1 1 x = map (fun r => [r]) x.
Proof.
  intros A x. rewrite windows_1, Nat.sub_0_r.
  assert (H : forall n (x : list A), length x = n -> map (fun i => firstn 1 (skipn i x)) (seq 0 n) = map (fun r => [r]) x).
  { clear. induction n as [|n IH]; intros [|r x] L; try discriminate; [reflexivity|].
    cbn [seq map skipn firstn]. f_equal. rewrite <- seq_shift, map_map. apply IH. cbn in L. lia. }
  apply H. reflexivity.
Qed.

Lemma Forall2_map_l : forall A B C (f : A -> B) (R : B -> C -> Prop) a c,
  Forall2 R (map f a) c <-> Forall2 (fun x y => R (f x) y) a c.
Proof.
  intros A B C f R a. induction a as [|x a IH]; intros c; cbn [map].
  - split; intros H; inversion H; constructor.
  - split; intros H; inversion H; subst; constructor; auto; now apply IH.
Qed.

Lemma Forall2_iff : forall A B (P Q : A -> B -> Prop) a b,
  (forall x y, In x a -> (P x y <-> Q x y)) -> (Forall2 P a b <-> Forall2 Q a b).
Proof.
  intros A B P Q a b H. split; intros F; induction F; constructor; try (apply H; [now left|assumption]);
    apply IHF; intros; apply H; now right.
Qed.

Lemma reach_bounds : forall idx c, In c idx -> - reach_left idx <= c <= reach_right idx.
Proof.
  induction idx as [|x idx IH]; intros c I; [destruct I|]. unfold reach_left, reach_right in *. cbn [map fold_right].
  destruct I as [->|I]; [lia|]. specialize (IH c I). lia.
Qed.

Lemma reach_nonneg : forall idx, 0 <= reach_left idx /\ 0 <= reach_right idx.
Proof.
  induction idx as [|x idx IH]; unfold reach_left, reach_right in *; cbn [map fold_right]; lia.
Qed.

Section Float.
Context {F : Type} (O : fops F).

(** Row layers, one row at a time. *)
Definition row_fun (l : layer F) (r : list F) : res (list F) :=
  match l with
  | Linear W b => add_vec O (mat_row O W r) b
  | ReLU => Ok (relu_row O r)
  | Normalize => normalize_row O r
  | Softmax => Ok (apply_softmax O r)
  | BatchNorm s o => r <- mul_elements O r s ;; add_vec O r o
  | LogSoftmax => Ok (apply_log_softmax O r)
  | _ => Fault Assert
  end.

Definition row_check (l : layer F) (d : Z) : Prop :=
  match l with
  | Linear W b => lenZ b <> 0 /\ 0 < num_cols W /\ d = lenZ W
  | BatchNorm s o => 0 < lenZ s
  | _ => True
  end.

Definition out_dim (b : block F) (d : Z) : Z :=
  match b with
  | Single (Linear W _) => num_cols W
  | Single _ => d
  | Context idx => lenZ idx * d
  end.

Lemma num_cols_uniform : forall d (x : matrix F), uniform d x -> x <> [] -> num_cols x = d.
Proof. intros d x U N. destruct x; [congruence|]. inversion U. assumption. Qed.

Lemma map_rows_map : forall A B (f : A -> B) x y, Ok (map f x) = Ok y <-> Forall2 (fun r r' => Ok (f r) = Ok r') x y.
Proof.
  intros A B f x. induction x as [|r x IH]; intros y; cbn [map].
  - split; [intros H; injection H as <-; constructor|intros H; inversion H; reflexivity].
  - split.
    + intros H. injection H as <-. constructor; [reflexivity|]. now apply IH.
    + intros H. inversion H as [|? ? ? ? H1 H2]; subst. injection H1 as <-. apply IH in H2. congruence.
Qed.

Lemma row_layer_char : forall l d x old y, well_formed (Single l) -> uniform d x -> x <> [] -> 0 < d ->
  (propagate O l x old = Ok y <-> row_check l d /\ Forall2 (fun r r' => row_fun l r = Ok r') x y).
Proof.
  intros l d x old y WF U N D.
  assert (T : forall P Q : Prop, (P <-> Q) -> (P <-> True /\ Q)) by tauto.
  destruct l as [W b| | | |idx|s o| |n m]; cbn [propagate row_fun row_check]; try (destruct WF);
    try (apply T; first [apply map_rows_map | apply map_rows_ok]).
  - unfold linear. rewrite (num_cols_uniform d x U N).
    assert (LX : 0 < lenZ x) by (unfold lenZ; destruct x; [congruence|cbn [length]; lia]).
    destruct (Z.eqb_spec (lenZ b) 0); cbn [negb check bind]; [split; [discriminate|tauto]|].
    unfold mat_shape. 
    assert (CP : 0 <= num_cols W) by (destruct W; cbn [num_cols]; [lia|apply lenZ_nonneg]).
    destruct (Z.eq_dec (num_cols W) 0) as [E|E].
    + rewrite E, Z.mul_0_r. cbn [Z.eqb]. destruct (Z.eqb_spec (lenZ x) 0); [lia|]. cbn [andb check bind].
      split; [discriminate|lia].
    + destruct (Z.eqb_spec (lenZ x * num_cols W) 0); [nia|].
      destruct (Z.ltb_spec 0 (lenZ x)); [|lia]. destruct (Z.ltb_spec 0 (num_cols W)); [|lia]. cbn [andb check bind].
      destruct (Z.eqb_spec d (lenZ W)); cbn [check bind]; [|split; [discriminate|tauto]].
      rewrite map_rows_ok. tauto.
  - unfold batch_norm. destruct (Z.ltb_spec 0 (lenZ s)); cbn [check bind]; [|split; [discriminate|lia]].
    rewrite map_rows_ok. tauto.
Qed.

Lemma row_fun_dim : forall l d r r', well_formed (Single l) -> lenZ r = d -> row_fun l r = Ok r' ->
  lenZ r' = out_dim (Single l) d.
Proof.
  intros l d r r' WF D H. destruct l as [W b| | | |idx|s o| |n m]; cbn [row_fun out_dim] in *; try discriminate.
  - unfold add_vec in H. destruct (Z.eqb_spec (lenZ (mat_row O W r)) (lenZ b)) as [E|]; [|discriminate].
    cbn [check bind] in H. injection H as <-. unfold lenZ in *. rewrite map2_length by lia.
    unfold mat_row. rewrite map_length, seq_length. 
    assert (0 <= num_cols W) by (destruct W; cbn [num_cols]; [lia|apply lenZ_nonneg]). lia.
  - injection H as <-. unfold relu_row, lenZ in *. rewrite map_length. assumption.
  - unfold normalize_row in H. destruct (vec_vec O r r); cbn [bind] in H; [|discriminate].
    injection H as <-. unfold lenZ in *. rewrite map_length. assumption.
  - injection H as <-. unfold apply_softmax, lenZ in *. rewrite !map_length. assumption.
  - unfold mul_elements in H. destruct (Z.eqb_spec (lenZ s) (lenZ r)) as [E|]; [|discriminate].
    cbn [check bind] in H. unfold add_vec in H.
    destruct (Z.eqb_spec (lenZ (map2 (f_mul O) r s)) (lenZ o)) as [E2|]; [|discriminate].
    cbn [check bind] in H. injection H as <-. unfold lenZ in *.
    rewrite map2_length by lia. rewrite map2_length by lia. assumption.
  - injection H as <-. unfold apply_log_softmax, lenZ in *. rewrite map_length. assumption.
Qed.

(** Splice and narrow. *)
Definition clamp (n z : Z) : Z :=
  let z := if z <? 0 then 0 else z in if z >? n - 1 then n - 1 else z.

Lemma clamp_bounds : forall n z, 0 < n -> 0 <= clamp n z < n.
Proof.
  intros n z H. unfold clamp. destruct (Z.ltb_spec z 0).
  - destruct (Z.gtb_spec 0 (n - 1)); lia.
  - destruct (Z.gtb_spec z (n - 1)); lia.
Qed.

Lemma splice_row_ok : forall d (x : matrix F) idx j, uniform d x -> x <> [] ->
  splice_row idx x j = Ok (concat (map (fun c => nth (Z.to_nat (clamp (lenZ x) (j + c))) x []) idx)).
Proof.
  intros d x idx j U N. unfold splice_row.
  assert (G : forall out, for_each idx (fun out c =>
    let cnt := j + c in
    let cnt := if cnt <? 0 then 0 else cnt in
    let cnt := if cnt >? lenZ x - 1 then lenZ x - 1 else cnt in
    r <- getZ x cnt ;;
    r <- vcopy (num_cols x) r ;;
    Ok (out ++ r)) out = Ok (out ++ concat (map (fun c => nth (Z.to_nat (clamp (lenZ x) (j + c))) x []) idx))).
  { induction idx as [|c idx IH]; intros out; cbn [for_each map concat]; [rewrite app_nil_r; reflexivity|].
    assert (LX : 0 < lenZ x) by (unfold lenZ; destruct x; [congruence|cbn [length]; lia]).
    assert (B : 0 <= clamp (lenZ x) (j + c) < lenZ x) by (apply clamp_bounds; assumption).
    cbv zeta.
    change (if (if j + c <? 0 then 0 else j + c) >? lenZ x - 1 then lenZ x - 1 else if j + c <? 0 then 0 else j + c)
      with (clamp (lenZ x) (j + c)).
    rewrite (getZ_nth _ x _ []) by assumption. cbn [bind]. unfold vcopy.
    assert (E : lenZ (nth (Z.to_nat (clamp (lenZ x) (j + c))) x []) = num_cols x).
    { rewrite (num_cols_uniform d x U N). unfold uniform in U. rewrite Forall_forall in U. apply U. apply nth_In. unfold lenZ in B. unfold lenZ. lia. }
    rewrite E, Z.eqb_refl. cbn [check bind]. cbv zeta in IH. rewrite IH, <- app_assoc. reflexivity. }
  exact (G []).
Qed.

Lemma map_rows_total : forall A B (f : A -> res B) (g : A -> B) x, (forall r, In r x -> f r = Ok (g r)) ->
  map_rows f x = Ok (map g x).
Proof.
  intros A B f g x H. apply map_rows_ok. induction x as [|r x IH]; cbn [map]; constructor.
  - apply H. now left.
  - apply IH. intros; apply H; now right.
Qed.

(** Row [i] of the narrowed splice. *)
Definition context_row (idx : list Z) (x : matrix F) (i : nat) : list F :=
  concat (map (fun c => nth (Z.to_nat (Z.of_nat i + reach_left idx + c)) x []) idx).

Lemma context_row_dim : forall d (x : matrix F) (f : Z -> nat) idx, uniform d x ->
  (forall c, In c idx -> (f c < length x)%nat) ->
  lenZ (concat (map (fun c => nth (f c) x []) idx)) = lenZ idx * d.
Proof.
  intros d x f idx U H. induction idx as [|c idx IH]; [reflexivity|].
  cbn [map concat]. rewrite lenZ_app, IH by (intros; apply H; now right).
  assert (E : lenZ (nth (f c) x []) = d).
  { unfold uniform in U. rewrite Forall_forall in U. apply U. apply nth_In. apply H. now left. }
  rewrite E. unfold lenZ. cbn [length]. lia.
Qed.

Lemma context_ok : forall d idx (x : matrix F) old n, uniform d x -> 0 < d -> idx <> [] -> (1 <= n)%nat ->
  length x = (n + Z.to_nat (reach_left idx) + Z.to_nat (reach_right idx))%nat ->
  propagate_all O (block_layers (Context idx)) x old = Ok (map (context_row idx x) (seq 0 n)).
Proof.
  intros d idx x old n U D NI Hn Len. pose proof (reach_nonneg idx) as [RL RR].
  cbn [block_layers propagate_all propagate].
  set (l := reach_left idx) in *. set (r := reach_right idx) in *.
  assert (NX : x <> []) by (intros ->; cbn in Len; lia).
  assert (LX : lenZ x = Z.of_nat n + l + r) by (unfold lenZ; lia).
  assert (LI : 0 < lenZ idx) by (unfold lenZ; destruct idx; [congruence|cbn [length]; lia]).
  unfold splice.
  destruct (Z.eqb_spec (lenZ idx) 0); [lia|]. cbn [negb check bind].
  rewrite (num_cols_uniform d x U NX).
  destruct (Z.eqb_spec (lenZ x) 0); [lia|]. destruct (Z.eqb_spec d 0); [lia|]. cbn [orb].
  unfold mat_shape at 1. destruct (Z.eqb_spec (lenZ x * (lenZ idx * d)) 0); [nia|].
  destruct (Z.ltb_spec 0 (lenZ x)); [|lia]. destruct (Z.ltb_spec 0 (lenZ idx * d)); [|nia]. cbn [andb check bind].
  set (g := fun j => concat (map (fun c => nth (Z.to_nat (clamp (lenZ x) (j + c))) x []) idx)).
  rewrite (map_rows_total _ _ _ g) by (intros j _; apply (splice_row_ok d x idx j U NX)).
  cbn [bind]. set (m := map g (seqZ 0 (length x))).
  assert (Lm : lenZ m = lenZ x) by (unfold m, lenZ; rewrite map_length, seqZ_length; reflexivity).
  unfold narrow. cbv zeta. destruct (Z.leb_spec 0 l); [|lia]. cbn [check bind]. rewrite Lm.
  destruct (Z.leb_spec (lenZ x) (l + r)); [lia|].
  assert (Cm : num_cols m = lenZ idx * d).
  { unfold m. destruct (length x) as [|k] eqn:K; [lia|]. cbn [seqZ map num_cols]. unfold g.
    apply (context_row_dim d x (fun c => Z.to_nat (clamp (lenZ x) (0 + c))) idx U).
    intros c _. pose proof (clamp_bounds (lenZ x) (0 + c)). unfold lenZ in *. lia. }
  rewrite Cm. unfold mat_shape. replace (lenZ x - l - r) with (Z.of_nat n) by lia.
  destruct (Z.eqb_spec (Z.of_nat n * (lenZ idx * d)) 0); [nia|].
  destruct (Z.ltb_spec 0 (Z.of_nat n)); [|lia]. destruct (Z.ltb_spec 0 (lenZ idx * d)); [|nia]. cbn [andb check bind].
  destruct (Z.ltb_spec l (lenZ x)); [|lia]. destruct (Z.leb_spec (Z.of_nat n) (lenZ x - l)); [|lia]. cbn [andb check bind].
  f_equal. rewrite Nat2Z.id. unfold m.
  assert (SQ : seqZ 0 (length x) = map Z.of_nat (seq 0 (length x))).
  { assert (Q : forall k a, seqZ (Z.of_nat a) k = map Z.of_nat (seq a k)).
    { clear. induction k; intros a; cbn [seqZ seq map]; auto. f_equal. rewrite <- IHk. f_equal. lia. }
    apply (Q _ 0%nat). }
  rewrite SQ, map_map.
  replace (length x) with (Z.to_nat l + (n + Z.to_nat r))%nat by lia.
  rewrite seq_app, map_app, skipn_app, skipn_all2 by (rewrite map_length, seq_length; lia).
  rewrite map_length, seq_length, Nat.sub_diag. cbn [skipn app].
  rewrite seq_app, map_app, firstn_app, map_length, seq_length, Nat.sub_diag, firstn_O, app_nil_r.
  rewrite firstn_all2 by (rewrite map_length, seq_length; lia).
  rewrite <- (Nat.add_0_r (0 + Z.to_nat l)).
  assert (S : forall n a b, seq (a + b) n = map (fun i => (a + i)%nat) (seq b n)).
  { clear. induction n; intros; cbn [seq map]; auto. f_equal.
    replace (S (a + b)) with (a + S b)%nat by lia. apply IHn. }
  rewrite S, map_map. apply map_ext_in. intros i I. apply in_seq in I. unfold g, context_row. f_equal.
  apply map_ext_in. intros c C. pose proof (reach_bounds idx c C) as B. fold l r in B. fold l. f_equal.
  unfold clamp. replace (Z.of_nat (0 + Z.to_nat l + i) + c) with (Z.of_nat i + l + c) by lia.
  destruct (Z.ltb_spec (Z.of_nat i + l + c) 0); [lia|].
  destruct (Z.gtb_spec (Z.of_nat i + l + c) (lenZ x - 1)); [lia|]. reflexivity.
Qed.

(** * Locality of a block *)

Definition local_to (b : block F) (d : Z) : Prop :=
  forall x old, uniform d x -> (block_left b + block_right b < length x)%nat ->
    (forall y, propagate_all O (block_layers b) x old = Ok y <->
       Forall2 (fun w r => propagate_all O (block_layers b) w [] = Ok [r])
         (windows (S (block_left b + block_right b)) 1 x) y) /\
    (forall y, propagate_all O (block_layers b) x old = Ok y ->
       uniform (out_dim b d) y /\ 0 < out_dim b d /\
       length y = (length x - (block_left b + block_right b))%nat).

Lemma block_local : forall b d, well_formed b -> 0 < d -> local_to b d.
Proof.
  intros [l|idx] d WF D x old U Len.
  - cbn [block_left block_right block_layers Nat.add] in *.
    assert (NX : x <> []) by (intros ->; cbn in Len; lia).
    assert (PA : forall x old, propagate_all O [l] x old = propagate O l x old).
    { intros. cbn [propagate_all]. destruct (propagate O l x0 old0); reflexivity. }
    split.
    + intros y. rewrite PA, (row_layer_char l d x old y WF U NX D), windows_rows, Forall2_map_l.
      assert (Q : forall r r', In r x -> (propagate_all O [l] [r] [] = Ok [r'] <-> row_check l d /\ row_fun l r = Ok r')).
      { intros r r' I. assert (Ur : uniform d [r]).
        { unfold uniform in *. rewrite Forall_forall in U. constructor; [apply U; assumption|constructor]. }
        rewrite PA, (row_layer_char l d [r] [] [r'] WF Ur ltac:(discriminate) D). split.
        - intros [C H]. inversion H; auto.
        - intros [C H]. auto. }
      split.
      * intros [C H]. apply (Forall2_iff _ _ (fun r r' => row_fun l r = Ok r')); [|assumption].
        intros r r' I. rewrite (Q r r' I). tauto.
      * intros H. destruct x as [|r0 x0]; [congruence|]. split.
        -- inversion H as [|? ? ? ? H1 _]; subst. apply Q in H1; [tauto|now left].
        -- apply (Forall2_iff _ _ (fun r r' => propagate_all O [l] [r] [] = Ok [r'])); [|assumption].
           intros r r' I. rewrite (Q r r' I). split; [tauto|]. intros R. split; [|assumption].
           inversion H as [|? ? ? ? H1 _]; subst. apply Q in H1; [tauto|now left].
    + intros y H. rewrite PA in H. apply (row_layer_char l d x old y WF U NX D) in H. destruct H as [C H].
      split; [|split].
      * unfold uniform in *. clear - H U WF. induction H as [|r r' x y E H IH]; constructor; inversion U; subst; auto.
        apply (row_fun_dim l (lenZ r) r r'); auto.
      * destruct l; cbn [out_dim row_check] in *; lia.
      * rewrite <- (Forall2_len _ _ _ _ _ H). lia.
  - cbn [block_left block_right] in *. cbn [well_formed] in WF.
    set (l := Z.to_nat (reach_left idx)) in *. set (r := Z.to_nat (reach_right idx)) in *.
    assert (E : forall old x, uniform d x -> (l + r < length x)%nat ->
       propagate_all O (block_layers (Context idx)) x old = Ok (map (context_row idx x) (seq 0 (length x - (l + r))))).
    { intros old0 x0 U0 L0. apply (context_ok d); auto; fold l r; lia. }
    assert (W1 : forall i, (i < length x - (l + r))%nat ->
       propagate_all O (block_layers (Context idx)) (firstn (S (l + r)) (skipn i x)) [] = Ok [context_row idx x i]).
    { intros i Hi. rewrite E; [|apply uniform_firstn, uniform_skipn; assumption|rewrite firstn_length, skipn_length; lia].
      rewrite firstn_length, skipn_length.
      replace (Nat.min (S (l + r)) (length x - i) - (l + r))%nat with 1%nat by lia. cbn [seq map]. do 2 f_equal.
      unfold context_row. f_equal. apply map_ext_in. intros c C. pose proof (reach_bounds idx c C) as B.
      pose proof (reach_nonneg idx) as [RL RR].
      assert (X : (Z.to_nat (Z.of_nat 0 + reach_left idx + c) < S (l + r))%nat) by (unfold l, r; lia).
      assert (Y : nth (Z.to_nat (Z.of_nat 0 + reach_left idx + c)) (firstn (S (l + r)) (skipn i x)) [] =
                  nth (Z.to_nat (Z.of_nat 0 + reach_left idx + c)) (skipn i x) []).
      { rewrite <- (firstn_skipn (S (l + r)) (skipn i x)) at 2. rewrite app_nth1; [reflexivity|].
        rewrite firstn_length, skipn_length. lia. }
      rewrite Y. clear Y. rewrite <- (firstn_skipn i x) at 2.
      rewrite app_nth2 by (rewrite firstn_length; lia). rewrite firstn_length. f_equal. lia. }
    rewrite (E old x U Len). split.
    + intros y. rewrite windows_1, Forall2_map_l. split.
      * intros H. injection H as <-.
        assert (G : forall s, (forall i, In i s -> (i < length x - (l + r))%nat) ->
          Forall2 (fun i r0 => propagate_all O (block_layers (Context idx)) (firstn (S (l + r)) (skipn i x)) [] = Ok [r0])
            s (map (context_row idx x) s)).
        { induction s as [|i s IH]; intros Hs; cbn [map]; constructor; [apply W1; apply Hs; now left|].
          apply IH. intros; apply Hs; now right. }
        apply G. intros i I. apply in_seq in I. lia.
      * intros H. f_equal.
        assert (G : forall s y, (forall i, In i s -> (i < length x - (l + r))%nat) ->
          Forall2 (fun i r0 => propagate_all O (block_layers (Context idx)) (firstn (S (l + r)) (skipn i x)) [] = Ok [r0]) s y ->
          map (context_row idx x) s = y).
        { clear H y. induction s as [|i s IH]; intros y Hs H; inversion H as [|? ? ? ? H1 H2]; subst; cbn [map]; [reflexivity|].
          rewrite W1 in H1 by (apply Hs; now left). injection H1 as <-. f_equal. apply IH; auto. intros; apply Hs; now right. }
        apply G; [|assumption]. intros i I. apply in_seq in I. lia.
    + intros y H. injection H as <-. split; [|split].
      * unfold uniform. apply Forall_map. apply Forall_forall. intros i I. apply in_seq in I. cbn [out_dim].
        apply (context_row_dim d x (fun c => Z.to_nat (Z.of_nat i + reach_left idx + c)) idx U).
        intros c C. pose proof (reach_bounds idx c C). pose proof (reach_nonneg idx). unfold l, r in I. lia.
      * cbn [out_dim]. assert (0 < lenZ idx) by (unfold lenZ; destruct idx; [congruence|cbn [length]; lia]). nia.
      * rewrite map_length, seq_length. reflexivity.
Qed.

(** * Composition *)

Lemma propagate_old : forall l (x : matrix F) d old old', uniform d x -> 0 < d -> x <> [] ->
  propagate O l x old = propagate O l x old'.
Proof.
  intros l x d old old' U D N. destruct l; try reflexivity. cbn [propagate]. unfold splice.
  rewrite (num_cols_uniform d x U N).
  assert (0 < lenZ x) by (unfold lenZ; destruct x; [congruence|cbn [length]; lia]).
  destruct (Z.eqb_spec (lenZ x) 0); [lia|]. destruct (Z.eqb_spec d 0); [lia|]. reflexivity.
Qed.

Lemma all_old : forall ls (x : matrix F) d old old', uniform d x -> 0 < d -> x <> [] ->
  propagate_all O ls x old = propagate_all O ls x old'.
Proof.
  intros ls x d old old' U D N. destruct ls; [reflexivity|]. cbn [propagate_all].
  rewrite (propagate_old l x d old old' U D N). reflexivity.
Qed.

Lemma all_app : forall ls1 ls2 (x old : matrix F) y,
  propagate_all O (ls1 ++ ls2) x old = Ok y <->
  exists m o, propagate_all O ls1 x old = Ok m /\ propagate_all O ls2 m o = Ok y /\
    (ls1 = [] -> o = old) /\ (ls1 <> [] -> propagate_all O (ls1 ++ ls2) x old = propagate_all O ls2 m o).
Proof.
  induction ls1 as [|l ls1 IH]; intros ls2 x old y; cbn [app propagate_all].
  - split.
    + intros H. exists x, old. repeat split; auto.
    + intros [m [o [H1 [H2 [H3 _]]]]]. injection H1 as <-. rewrite H3 in H2; auto.
  - destruct (propagate O l x old) as [m0|]; cbn [bind].
    + rewrite IH. split.
      * intros [m [o [H1 [H2 [H3 H4]]]]]. exists m, o. split; [assumption|]. split; [assumption|].
        split; [discriminate|]. intros _. destruct ls1.
        -- cbn [app propagate_all] in *. injection H1 as <-. rewrite H3 by reflexivity. reflexivity.
        -- apply H4. discriminate.
      * intros [m [o [H1 [H2 [_ H4]]]]]. specialize (H4 ltac:(discriminate)). rewrite H2 in H4.
        apply IH in H4. exact H4.
    + split; [discriminate|]. intros [m [o [H _]]]. discriminate.
Qed.

(** The same without the bookkeeping of the second matrix. *)
Lemma all_app_nonempty : forall ls1 ls2 (x : matrix F) d d' old y, ls1 <> [] ->
  uniform d x -> 0 < d -> x <> [] ->
  (forall m, propagate_all O ls1 x old = Ok m -> uniform d' m /\ 0 < d' /\ m <> []) ->
  (propagate_all O (ls1 ++ ls2) x old = Ok y <->
   exists m, propagate_all O ls1 x old = Ok m /\ propagate_all O ls2 m [] = Ok y).
Proof.
  intros ls1 ls2 x d d' old y N1 U D N H. split.
  - intros E. apply all_app in E. destruct E as [m [o [E1 [E2 _]]]]. exists m. split; [assumption|].
    destruct (H m E1) as [U' [D' N']]. rewrite (all_old ls2 m d' [] o); auto.
  - intros [m [E1 E2]]. destruct (H m E1) as [U' [D' N']].
    clear - E1 E2 U' D' N'. revert x old E1. induction ls1 as [|l ls1 IH]; intros x old E1; cbn [app propagate_all] in *.
    + injection E1 as ->. rewrite (all_old ls2 m d' old []); auto.
    + destruct (propagate O l x old) as [m0|]; cbn [bind] in *; [|discriminate]. apply IH. assumption.
Qed.

Lemma sub_map_seq : forall A (f : nat -> A) i n k,
  firstn n (skipn i (map f (seq 0 (i + (n + k))))) = map (fun j => f (i + j)%nat) (seq 0 n).
Proof.
  intros A f i n k. rewrite seq_app, map_app, skipn_app.
  rewrite (skipn_all2 (map f (seq 0 i))) by (rewrite map_length, seq_length; lia).
  rewrite map_length, seq_length, Nat.sub_diag. cbn [app skipn].
  rewrite seq_app, map_app, firstn_app, map_length, seq_length, Nat.sub_diag, firstn_O, app_nil_r.
  rewrite firstn_all2 by (rewrite map_length, seq_length; lia).
  rewrite <- (Nat.add_0_r (0 + i)).
  assert (S : forall n a b, seq (a + b) n = map (fun i => (a + i)%nat) (seq b n)).
  { clear. induction n; intros; cbn [seq map]; auto. f_equal.
    replace (S (a + b)) with (a + S b)%nat by lia. apply IHn. }
  rewrite S, map_map. apply map_ext. intros j. f_equal. 
Qed.

Lemma windows_nested : forall A k1 k2 (x : list A) i,
  windows (S k1) 1 (firstn (S (k1 + k2)) (skipn i x)) =
  firstn (S k2) (skipn i (windows (S k1) 1 x)) \/ (length x < i + S (k1 + k2))%nat.
Proof.
  intros A k1 k2 x i. destruct (Nat.ltb_spec (length x) (i + S (k1 + k2))); [now right|]. left.
  rewrite !windows_1. rewrite firstn_length, skipn_length.
  replace (Nat.min (S (k1 + k2)) (length x - i) - k1)%nat with (S k2) by lia.
  replace (length x - k1)%nat with (i + (S k2 + (length x - k1 - i - S k2)))%nat by lia.
  rewrite sub_map_seq. apply map_ext_in. intros j J. apply in_seq in J.
  rewrite skipn_firstn_comm, firstn_firstn, skipn_add. f_equal. lia.
Qed.

Lemma Forall2_sub : forall A B (R : A -> B -> Prop) a b i n, Forall2 R a b ->
  Forall2 R (firstn n (skipn i a)) (firstn n (skipn i b)).
Proof.
  intros A B R a b i n H. 
  assert (H1 : Forall2 R (skipn i a) (skipn i b)).
  { revert i. induction H; intros [|i]; cbn [skipn]; auto. }
  clear H. revert n. induction H1; intros [|n]; cbn [firstn]; auto.
Qed.

Lemma Forall2_nth : forall A B (R : A -> B -> Prop) a b, length a = length b ->
  (forall i da db, (i < length a)%nat -> R (nth i a da) (nth i b db)) -> Forall2 R a b.
Proof.
  intros A B R a. induction a as [|x a IH]; intros [|y b] L H; try discriminate; constructor.
  - apply (H 0%nat x y). cbn. lia.
  - apply IH; [cbn in L; lia|]. intros i da db Hi. apply (H (S i) da db). cbn. lia.
Qed.

Lemma Forall2_nth_elim : forall A B (R : A -> B -> Prop) a b i da db, Forall2 R a b ->
  (i < length a)%nat -> R (nth i a da) (nth i b db).
Proof.
  intros A B R a b i da db H. revert i. induction H; intros i Hi; cbn [length] in Hi; [lia|].
  destruct i; cbn [nth]; auto. apply IHForall2. lia.
Qed.

(** Two local relations compose; the first is a partial function. *)
Lemma compose_windows : forall A B C (R1 : list A -> B -> Prop) (R2 : list B -> C -> Prop) k1 k2 x y,
  (forall w b b', R1 w b -> R1 w b' -> b = b') -> (k1 + k2 < length x)%nat ->
  ((exists m, Forall2 R1 (windows (S k1) 1 x) m /\ Forall2 R2 (windows (S k2) 1 m) y) <->
   Forall2 (fun w c => exists m, Forall2 R1 (windows (S k1) 1 w) m /\ R2 m c)
     (windows (S (k1 + k2)) 1 x) y).
Proof.
  intros A B C R1 R2 k1 k2 x y Fun Len.
  assert (NE : forall i, (i < length x - (k1 + k2))%nat ->
    windows (S k1) 1 (firstn (S (k1 + k2)) (skipn i x)) = firstn (S k2) (skipn i (windows (S k1) 1 x))).
  { intros i Hi. destruct (windows_nested A k1 k2 x i); [assumption|lia]. }
  split.
  - intros [m [H1 H2]]. pose proof (Forall2_len _ _ _ _ _ H1) as L1. rewrite windows_1_length in L1.
    pose proof (Forall2_len _ _ _ _ _ H2) as L2. rewrite windows_1_length in L2.
    rewrite windows_1 in H2. rewrite windows_1. rewrite Forall2_map_l in *.
    replace (length m - k2)%nat with (length x - (k1 + k2))%nat in H2 by lia.
    assert (G : forall s ys, (forall i, In i s -> (i < length x - (k1 + k2))%nat) ->
      Forall2 (fun i c => R2 (firstn (S k2) (skipn i m)) c) s ys ->
      Forall2 (fun i c => exists m, Forall2 R1 (windows (S k1) 1 (firstn (S (k1 + k2)) (skipn i x))) m /\ R2 m c) s ys).
    { induction s as [|i s IH]; intros ys Hs H; inversion H; subst; constructor.
      - exists (firstn (S k2) (skipn i m)). split; [|assumption]. rewrite NE by (apply Hs; now left).
        apply Forall2_sub. assumption.
      - apply IH; auto. intros; apply Hs; now right. }
    apply G; [|assumption]. intros i I. apply in_seq in I. lia.
  - intros H. pose proof (Forall2_len _ _ _ _ _ H) as L. rewrite windows_1_length in L.
    set (n := (length x - (k1 + k2))%nat) in *.
    assert (HI : forall i dc, (i < n)%nat -> exists m, Forall2 R1 (firstn (S k2) (skipn i (windows (S k1) 1 x))) m /\
                R2 m (nth i y dc)).
    { intros i dc Hi. pose proof (Forall2_nth_elim _ _ _ _ _ i [] dc H) as X. cbv beta in X.
      rewrite windows_1_length in X. specialize (X Hi). destruct X as [m [X1 X2]]. exists m. split; [|assumption].
      rewrite windows_1 in X1 at 1. rewrite windows_1 in X1.
      assert (E : nth i (windows (S (k1 + k2)) 1 x) [] = firstn (S (k1 + k2)) (skipn i x)).
      { rewrite windows_1. fold n. rewrite (nth_indep _ [] (firstn (S (k1 + k2)) (skipn 0 x))) by (rewrite map_length, seq_length; lia).
        rewrite (map_nth (fun i => firstn (S (k1 + k2)) (skipn i x))). rewrite seq_nth by lia. reflexivity. }
      rewrite <- (windows_1 A k1) in X1. rewrite <- windows_1 in X1.
      rewrite E, NE in X1 by lia. exact X1. }
    (* every window has an image *)
    assert (EX : forall j, (j < length x - k1)%nat -> exists b, R1 (firstn (S k1) (skipn j x)) b).
    { intros j Hj. set (i := Nat.min j (n - 1)).
      destruct y as [|y0 y']; [cbn in L; lia|].
      destruct (HI i y0 ltac:(lia)) as [m [M1 _]].
      assert (Lw : length (firstn (S k2) (skipn i (windows (S k1) 1 x))) = S k2).
      { rewrite firstn_length, skipn_length, windows_1_length. lia. }
      pose proof (Forall2_len _ _ _ _ _ M1) as Lm. rewrite Lw in Lm.
      destruct m as [|b0 m']; [discriminate|].
      pose proof (Forall2_nth_elim _ _ _ _ _ (j - i)%nat [] b0 M1) as X. rewrite Lw in X.
      specialize (X ltac:(lia)). exists (nth (j - i) (b0 :: m') b0).
      assert (E : nth (j - i) (firstn (S k2) (skipn i (windows (S k1) 1 x))) [] = firstn (S k1) (skipn j x)).
      { rewrite <- NE by lia. rewrite windows_1, firstn_length, skipn_length.
        replace (Nat.min (S (k1 + k2)) (length x - i) - k1)%nat with (S k2) by lia.
        rewrite (nth_indep _ [] (firstn (S k1) (skipn 0 (firstn (S (k1 + k2)) (skipn i x)))))
          by (rewrite map_length, seq_length; lia).
        rewrite (map_nth (fun q => firstn (S k1) (skipn q (firstn (S (k1 + k2)) (skipn i x))))).
        rewrite seq_nth by lia. rewrite skipn_firstn_comm, firstn_firstn, skipn_add.
        f_equal; [lia|]. f_equal. lia. }
      rewrite <- E. exact X. }
    assert (M : exists m, Forall2 R1 (windows (S k1) 1 x) m).
    { rewrite windows_1. assert (G : forall s, (forall j, In j s -> (j < length x - k1)%nat) ->
        exists m, Forall2 R1 (map (fun i => firstn (S k1) (skipn i x)) s) m).
      { induction s as [|j s IH]; intros Hs; [exists []; constructor|].
        destruct (EX j (Hs j (or_introl eq_refl))) as [b Hb].
        destruct IH as [m Hm]; [intros; apply Hs; now right|]. exists (b :: m). constructor; assumption. }
      apply G. intros j J. apply in_seq in J. lia. }
    destruct M as [m Hm]. exists m. split; [assumption|].
    pose proof (Forall2_len _ _ _ _ _ Hm) as Lm. rewrite windows_1_length in Lm.
    apply Forall2_nth; [rewrite windows_1_length; lia|].
    intros i da db Hi. rewrite windows_1_length in Hi.
    destruct (HI i db ltac:(lia)) as [m' [M1 M2]].
    assert (E : nth i (windows (S k2) 1 m) da = m').
    { rewrite windows_1. rewrite (nth_indep _ da (firstn (S k2) (skipn 0 m))) by (rewrite map_length, seq_length; lia).
      rewrite (map_nth (fun q => firstn (S k2) (skipn q m))). rewrite seq_nth by lia. cbn [Nat.add].
      pose proof (Forall2_sub _ _ _ _ _ i (S k2) Hm) as Hs.
      clear - Hs M1 Fun. revert m' M1. induction Hs; intros m' M1; inversion M1; subst; auto.
      f_equal; [eapply Fun; eauto|]. apply IHHs. assumption. }
    rewrite E. exact M2.
Qed.

Lemma stack_local : forall bs d, Forall well_formed bs -> 0 < d ->
  local (nnet_propagate O (flat_map block_layers bs)) (left_context bs) (right_context bs) d.
Proof.
  induction bs as [|b bs IH]; intros d WF D x y U Len.
  - cbn [flat_map]. unfold nnet_propagate, left_context, right_context in *. cbn [map list_sum fold_right Nat.add propagate_all] in *.
    rewrite windows_rows, Forall2_map_l. split.
    + intros H. injection H as <-. clear. induction x; constructor; auto.
    + intros H. f_equal. clear - H. induction H; [reflexivity|]. congruence.
  - inversion WF as [|? ? W1 W2]; subst. cbn [flat_map].
    pose proof (block_local b d W1 D) as B.
    set (k1 := (block_left b + block_right b)%nat).
    set (k2 := (left_context bs + right_context bs)%nat).
    assert (K : (left_context (b :: bs) + right_context (b :: bs) = k1 + k2)%nat).
    { unfold left_context, right_context, k1, k2. cbn [map list_sum fold_right]. 
      unfold left_context, right_context, list_sum. lia. }
    rewrite K in *.
    assert (NB : block_layers b <> []) by (destruct b; discriminate).
    assert (Split : forall z v, uniform d z -> (k1 + k2 < length z)%nat ->
       (nnet_propagate O (block_layers b ++ flat_map block_layers bs) z = Ok v <->
        exists m, Forall2 (fun w r => propagate_all O (block_layers b) w [] = Ok [r]) (windows (S k1) 1 z) m /\
          Forall2 (fun w r => nnet_propagate O (flat_map block_layers bs) w = Ok [r]) (windows (S k2) 1 m) v)).
    { intros z v Uz Lz. unfold nnet_propagate at 1.
      destruct (B z [] Uz ltac:(fold k1; lia)) as [B1 B2]. fold k1 in B1, B2.
      assert (NZ : z <> []) by (intros ->; cbn in Lz; lia).
      rewrite (all_app_nonempty _ _ z d (out_dim b d) [] v NB Uz D NZ).
      - split.
        + intros [m [E1 E2]]. exists m. split; [now apply B1|].
          destruct (B2 m E1) as [U' [D' L']]. apply (IH (out_dim b d) W2 D' m v U'); [fold k2; lia|assumption].
        + intros [m [E1 E2]]. apply B1 in E1. exists m. split; [assumption|].
          destruct (B2 m E1) as [U' [D' L']]. apply (IH (out_dim b d) W2 D' m v U'); [fold k2; lia|assumption].
      - intros m E1. destruct (B2 m E1) as [U' [D' L']]. split; [assumption|]. split; [assumption|].
        intros ->. cbn in L'. lia. }
    rewrite (Split x y U Len).
    rewrite (compose_windows _ _ _ (fun w r => propagate_all O (block_layers b) w [] = Ok [r])
       (fun w r => nnet_propagate O (flat_map block_layers bs) w = Ok [r]) k1 k2 x y).
    + apply Forall2_iff. intros w r I.
      assert (Lw : length w = S (k1 + k2)) by (apply (windows_1_in_length _ _ _ _ I)).
      assert (Uw : uniform d w).
      { apply windows_1_in in I. destruct I as [i [_ ->]]. apply uniform_firstn, uniform_skipn. assumption. }
      rewrite (Split w [r] Uw ltac:(lia)). split.
      * intros [m [M1 M2]]. exists m. split; [assumption|].
        pose proof (Forall2_len _ _ _ _ _ M1) as Lm. rewrite windows_1_length in Lm.
        rewrite windows_1_one by lia. constructor; [assumption|constructor].
      * intros [m [M1 M2]]. exists m. split; [assumption|].
        pose proof (Forall2_len _ _ _ _ _ M1) as Lm. rewrite windows_1_length in Lm.
        rewrite windows_1_one in M2 by lia. inversion M2; assumption.
    + intros w r r' H1 H2. congruence.
    + lia.
Qed.

End Float.
