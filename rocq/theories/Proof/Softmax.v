(** Softmax, log-softmax and normalisation over the real numbers. *)
From Coq Require Import ZArith Reals List Lia Lra.
From Verif.Base Require Import Prelude.
From Verif.Model Require Import Arith Vector Fbank Nnet Exact.
From Verif.Spec Require Import FbankSpec RealSpec.
From Verif.Proof Require Import Nnet Fbank FbankFrame FbankTotal Layers.
Import ListNotations.
Open Scope R_scope.

Lemma fold_total : forall l a, fold_left Rplus l a = a + total l.
Proof.
  induction l as [|x l IH]; intros a; cbn; [lra|]. rewrite IH. unfold total. lra.
Qed.

Lemma fold_total_map : forall (f : R -> R) l a, fold_left (fun s x => s + f x) l a = a + total (map f l).
Proof.
  induction l as [|x l IH]; intros a; cbn; [lra|]. rewrite IH. unfold total. lra.
Qed.

Lemma total_pos : forall l, positive l -> l <> [] -> 0 < total l.
Proof.
  intros l H N. assert (0 <= total l /\ (l <> [] -> 0 < total l)) as [_ G]; [|auto].
  clear N. induction l as [|x l IH]; cbn; [split; [lra|congruence]|].
  assert (0 < x) by (apply H; now left).
  destruct IH as [IH _]; [intros y Y; apply H; now right|]. split; [|intros _]; unfold total in *; lra.
Qed.

Lemma total_scale : forall k l, total (map (fun x => k * x) l) = k * total l.
Proof. induction l as [|x l IH]; cbn; [lra|]. unfold total in *. rewrite IH. lra. Qed.

Lemma map_rows_ok : forall {A B} (f : A -> B) m, map_rows (fun r => Ok (f r)) m = Ok (map f m).
Proof. induction m as [|r m IH]; cbn; [reflexivity|]. now rewrite IH. Qed.

Lemma Forall2_map_r : forall {A B} (f : A -> B) (P : A -> B -> Prop) l, (forall x, P x (f x)) -> Forall2 P l (map f l).
Proof. induction l; cbn; intros H; constructor; auto. Qed.

Definition expsum (x : list R) : R := total (map exp x).

Lemma exps_positive : forall x, positive (map exp x).
Proof. intros x v H. apply in_map_iff in H. destruct H as [u [<- _]]. apply exp_pos. Qed.

Lemma expsum_pos : forall x, x <> [] -> 0 < expsum x.
Proof.
  intros x N. apply total_pos; [apply exps_positive|]. destruct x; [congruence|discriminate].
Qed.

Lemma softmax_formula : forall x, apply_softmax rops x = map (fun v => exp v / expsum x) x.
Proof.
  intros x. unfold apply_softmax. cbn. rewrite fold_total, Rplus_0_l, map_map. reflexivity.
Qed.

Lemma log_softmax_formula : forall x, apply_log_softmax rops x = map (fun v => v - ln (expsum x)) x.
Proof.
  intros x. unfold apply_log_softmax. cbn. rewrite (fold_total_map exp), Rplus_0_l. reflexivity.
Qed.

Lemma nth_map_R : forall (f : R -> R) l i d, (i < length l)%nat -> nth i (map f l) d = f (nth i l d).
Proof.
  intros f l i d H. rewrite (nth_indep _ d (f d)) by now rewrite map_length. apply map_nth.
Qed.

Lemma softmax_boltzmann : forall x, boltzmann x (apply_softmax rops x).
Proof.
  intros x. rewrite softmax_formula. split; [apply map_length|]. split; [|split].
  - intros p H. apply in_map_iff in H. destruct H as [v [<- V]].
    apply Rdiv_lt_0_compat; [apply exp_pos|]. apply expsum_pos. intros ->. exact V.
  - intros N. pose proof (expsum_pos x N) as P.
    rewrite (map_ext _ (fun v => / expsum x * exp v)) by (intros; unfold Rdiv; ring).
    rewrite <- (map_map exp (fun e => / expsum x * e)), total_scale. fold (expsum x). field. lra.
  - intros i j I J. rewrite !nth_map_R by assumption. unfold Rdiv. ring.
Qed.

Lemma softmax_rows : forall m old,
  exists y, propagate rops Softmax m old = Ok y /\ Forall2 boltzmann m y.
Proof.
  intros m old. exists (map (apply_softmax rops) m). split; [reflexivity|].
  apply Forall2_map_r. apply softmax_boltzmann.
Qed.

Lemma log_softmax_rows : forall m old,
  exists p l, propagate rops Softmax m old = Ok p /\ propagate rops LogSoftmax m old = Ok l /\
    l = map (map ln) p.
Proof.
  intros m old. exists (map (apply_softmax rops) m), (map (apply_log_softmax rops) m).
  split; [reflexivity|]. split; [reflexivity|].
  rewrite map_map. apply map_ext. intros x. rewrite log_softmax_formula, softmax_formula, map_map.
  apply map_ext_in. intros v V.
  assert (P : 0 < expsum x) by (apply expsum_pos; intros ->; exact V).
  unfold Rdiv. rewrite ln_mult, ln_Rinv, ln_exp; [ring| |apply exp_pos|now apply Rinv_0_lt_compat].
  exact P.
Qed.

Lemma expsum_shift : forall c x, expsum (map (fun v => c + v) x) = exp c * expsum x.
Proof.
  intros c x. unfold expsum. rewrite map_map, (map_ext _ (fun v => exp c * exp v)) by (intros; apply exp_plus).
  rewrite <- (map_map exp (fun e => exp c * e)). apply total_scale.
Qed.

Lemma softmax_shift : forall x y, shifted x y -> apply_softmax rops y = apply_softmax rops x.
Proof.
  intros x y [c ->]. rewrite !softmax_formula, map_map, expsum_shift. apply map_ext_in. intros v V.
  assert (P : 0 < expsum x) by (apply expsum_pos; intros ->; exact V).
  rewrite exp_plus. pose proof (exp_pos c). field. lra.
Qed.

Lemma log_softmax_shift : forall x y, shifted x y -> apply_log_softmax rops y = apply_log_softmax rops x.
Proof.
  intros x y [c ->]. rewrite !log_softmax_formula, map_map, expsum_shift. apply map_ext_in. intros v V.
  assert (P : 0 < expsum x) by (apply expsum_pos; intros ->; exact V).
  rewrite ln_mult, ln_exp; [ring|apply exp_pos|exact P].
Qed.

Lemma rows_shift : forall m m' old old', Forall2 shifted m m' ->
  propagate rops Softmax m' old' = propagate rops Softmax m old /\
  propagate rops LogSoftmax m' old' = propagate rops LogSoftmax m old.
Proof.
  intros m m' old old' H. cbn [propagate]. split; f_equal.
  - induction H as [|x y m m' S _ IH]; cbn; [reflexivity|]. now rewrite (softmax_shift _ _ S), IH.
  - induction H as [|x y m m' S _ IH]; cbn; [reflexivity|]. now rewrite (log_softmax_shift _ _ S), IH.
Qed.

Lemma dot_square : forall x, dot_product rops x x = total (map (fun v => v * v) x).
Proof.
  intros x. unfold dot_product. cbn [f_add f_mul f_zero rops].
  enough (G : forall a, fold_left (fun t p => t + fst p * snd p) (combine x x) a = a + total (map (fun v => v * v) x))
    by (rewrite G; lra).
  induction x as [|v x IH]; intros a; cbn; [lra|]. rewrite IH. unfold total. lra.
Qed.

Lemma squares_pos : forall x, (exists v, In v x /\ v <> 0) -> 0 < total (map (fun v => v * v) x).
Proof.
  assert (N : forall x, 0 <= total (map (fun v => v * v) x)).
  { induction x as [|v x IH]; cbn; [lra|]. unfold total in IH. pose proof (Rle_0_sqr v) as S. unfold Rsqr in S. lra. }
  intros x [v [V Z]]. induction x as [|w x IH]; [destruct V|]. cbn. pose proof (N x) as P. unfold total in *.
  destruct V as [->|V].
  - pose proof (Rsqr_pos_lt v Z) as S. unfold Rsqr in S. lra.
  - specialize (IH V). pose proof (Rle_0_sqr w) as S. unfold Rsqr in S. lra.
Qed.

Lemma normalize_rows : forall m old,
  exists y, propagate rops Normalize m old = Ok y /\
    Forall2 (fun x y => (exists v, In v x /\ v <> 0) -> unit_power x y) m y.
Proof.
  intros m old.
  exists (map (fun x => map (fun e => e * sqrt (IZR (lenZ x) / dot_product rops x x)) x) m). split.
  - cbn [propagate]. apply map_rows_total. intros r _. unfold normalize_row.
    destruct (vec_vec_ok rops r r eq_refl) as [s E]. rewrite E. cbn [bind]. apply vec_vec_fold in E.
    destruct E as [_ ->]. reflexivity.
  - apply Forall2_map_r. intros x H. rewrite dot_square.
    pose proof (squares_pos x H) as P. set (s := total (map (fun v => v * v) x)) in *.
    assert (L : 0 < INR (length x)).
    { apply lt_0_INR. destruct H as [v [V _]]. destruct x; [destruct V|cbn; lia]. }
    assert (EL : IZR (lenZ x) = INR (length x)) by (unfold lenZ; now rewrite INR_IZR_INZ). rewrite EL.
    assert (Q : 0 < INR (length x) / s) by now apply Rdiv_lt_0_compat.
    exists (sqrt (INR (length x) / s)). split; [now apply sqrt_lt_R0|]. split.
    + apply map_ext. intros. ring.
    + rewrite map_map, (map_ext _ (fun v => INR (length x) / s * (v * v))).
      * rewrite <- (map_map (fun v => v * v) (fun e => INR (length x) / s * e)), total_scale. fold s. field. lra.
      * intros v. rewrite <- (sqrt_sqrt (INR (length x) / s)) at 3 by lra. ring.
Qed.

(** Cases. *)
Lemma softmax_case : forall old,
  propagate rops Softmax [[ln 3; 0]; [0; 0]] old = Ok [[3 / 4; 1 / 4]; [1 / 2; 1 / 2]].
Proof.
  intros old. cbn [propagate map]. rewrite !softmax_formula. unfold expsum, total. cbn.
  rewrite exp_0, exp_ln by lra. repeat (f_equal; try field).
Qed.

Lemma shift_case : Forall2 shifted [[ln 3; 0]; [0; 0]] [[7 + ln 3; 7 + 0]; [- 1 + 0; - 1 + 0]].
Proof. repeat constructor; [exists 7|exists (-1)]; reflexivity. Qed.

Lemma normalize_case : (exists v, In v [3; 4] /\ v <> 0) /\ unit_power [3; 4] [3 * sqrt 2 / 5; 4 * sqrt 2 / 5].
Proof.
  split; [exists 3; split; [now left|lra]|]. exists (sqrt 2 / 5). split.
  - apply Rdiv_lt_0_compat; [apply sqrt_lt_R0|]; lra.
  - split; [cbn; repeat (f_equal; try field)|]. cbn. pose proof (sqrt_sqrt 2 ltac:(lra)). nra.
Qed.
