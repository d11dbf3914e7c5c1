(** Quantisation: cases and failures. *)
From Coq Require Import ZArith Reals List Bool Lia Lra.
From Verif.Base Require Import Prelude Lemmas.
From Verif.Model Require Import Arith Vector Cmvn Matrix Quantize Exact.
From Verif.Spec Require Import MatrixSpec QuantizeSpec.
From Verif.Proof Require Import Loop Matrix MatrixResize Quantize.
Import ListNotations.
Open Scope R_scope.

(** Elements too close to one another. *)
Lemma too_close : forall junk b v dest lo hi, inside v (lenZ b) -> v_stride v = v_cols v ->
  (forall x, occurs b v x -> x <= float_max) -> extremes b v lo hi -> float_min <= lo < hi ->
  (IZR (2 ^ 31) + 1) * (hi - lo) < 255 * lo ->
  quantize rops rwide rround junk b v dest = Fault Undef.
Proof.
  intros junk b v dest lo hi I T Bd (Ol & Oh & Al) LH K.
  destruct (min_max_ok b v I T Bd) as [mn [mx (E & Omn & A & Bx & M)]].
  assert (lo = mn) as -> by (apply Rle_antisym; [apply Al, Omn|apply A, Ol]).
  assert (hi = mx) as ->.
  { pose proof (A hi Oh). destruct Bx as [Bx|Bx]; [lra|]. pose proof (Al mx Bx). lra. }
  unfold quantize. rewrite T, Z.eqb_refl. cbn [check bind].
  assert (Nz : negb (v_cols v =? 0)%Z && negb (v_rows v =? 0)%Z = true).
  { destruct (Z.eqb_spec (v_cols v) 0); [unfold inside in I; lia|]. destruct (Z.eqb_spec (v_rows v) 0); [unfold inside in I; lia|reflexivity]. }
  rewrite Nz. cbn [check bind]. unfold quant_params. rewrite E.
  cbn [bind f_sub wd_div wd_of wd_neg wd_int wd_to q_round rops rwide rround].
  set (t := - mn / ((mx - mn) / 255)).
  assert (Et : t * (mx - mn) = - (255 * mn)) by (unfold t; field; lra).
  destruct (nearest_ok t) as [z [Ez Az]]. rewrite Ez.
  assert (Lo : t < - (IZR (2 ^ 31) + 1)).
  { apply Rmult_lt_reg_r with (mx - mn); [lra|]. rewrite Et. lra. }
  assert (B := Rle_abs (IZR z - t)).
  assert (Z1 : (z < - 2 ^ 31)%Z) by (apply lt_IZR; rewrite opp_IZR; lra).
  replace (in_int32 z) with false; [reflexivity|]. symmetry. destruct (in_int32 z) eqn:F; [|reflexivity].
  apply in_int32_iff in F. unfold int_min in F. lia.
Qed.

Definition close2 : list R := [3 / 2; 3 / 2 + / IZR (2 ^ 23)].
Definition row2 : view := mk_view 0 1 2 2.

Lemma max_big : 1000 <= float_max.
Proof. unfold float_max. rewrite <- mult_IZR. apply IZR_le. lia. Qed.

Lemma small23 : 0 < / IZR (2 ^ 23) <= / 1000000.
Proof.
  split; [apply Rinv_0_lt_compat, IZR_lt; lia|]. apply Rinv_le_contravar; [lra|]. apply IZR_le. lia.
Qed.

Lemma min_small : float_min <= 1.
Proof.
  unfold float_min. rewrite <- Rinv_1. apply Rinv_le_contravar; [lra|]. apply IZR_le. lia.
Qed.

Lemma occurs2 : forall a b x, occurs [a; b] row2 x <-> x = a \/ x = b.
Proof.
  intros a b x. split.
  - intros [r [c [[R1 C1] E]]]. cbn in R1, C1. assert (r = 0%Z) as -> by lia.
    assert (c = 0%Z \/ c = 1%Z) as [-> | ->] by lia; cbn in E; injection E as <-; auto.
  - intros [-> | ->]; [exists 0%Z, 0%Z|exists 0%Z, 1%Z]; (split; [split; cbn; lia|reflexivity]).
Qed.

Lemma close_case : inside row2 (lenZ close2) /\ v_stride row2 = v_cols row2 /\
  (forall x, occurs close2 row2 x -> 0 < x <= float_max) /\
  extremes close2 row2 (3 / 2) (3 / 2 + / IZR (2 ^ 23)) /\ 3 / 2 <> 3 / 2 + / IZR (2 ^ 23) /\
  forall junk dest, quantize rops rwide rround junk close2 row2 dest = Fault Undef.
Proof.
  pose proof small23 as S. pose proof max_big as M. pose proof min_small as Mn.
  assert (I : inside row2 (lenZ close2)) by (unfold inside, int_max; cbn; lia).
  assert (B : forall x, occurs close2 row2 x -> 0 < x <= float_max) by (intros x [-> | ->]%occurs2; lra).
  assert (X : extremes close2 row2 (3 / 2) (3 / 2 + / IZR (2 ^ 23))).
  { split; [apply occurs2; auto|]. split; [apply occurs2; auto|]. intros x [-> | ->]%occurs2; lra. }
  split; [exact I|]. split; [reflexivity|]. split; [exact B|]. split; [exact X|]. split; [lra|].
  intros junk dest. apply (too_close _ _ _ _ _ _ I eq_refl (fun x H => proj2 (B x H)) X); [lra|].
  replace (3 / 2 + / IZR (2 ^ 23) - 3 / 2) with (/ IZR (2 ^ 23)) by lra.
  apply Rmult_lt_reg_r with (IZR (2 ^ 23)); [apply IZR_lt; lia|].
  rewrite Rmult_assoc, Rinv_l, Rmult_1_r by (apply not_0_IZR; lia).
  rewrite <- plus_IZR. replace (255 * (3 / 2) * IZR (2 ^ 23)) with (IZR (765 * 2 ^ 22)); [apply IZR_lt; lia|].
  replace (2 ^ 23)%Z with (2 * 2 ^ 22)%Z by reflexivity. rewrite !mult_IZR. lra.
Qed.

(** A matrix that is quantised. *)
Lemma quantize_case :
  let b := [-1; 3] in
  inside row2 (lenZ b) /\ v_stride row2 = v_cols row2 /\ receives row2 (mk_mat None no_view) /\
  (forall x, occurs b row2 x -> x <= float_max) /\ spread b row2 /\ extremes b row2 (-1) 3.
Proof.
  intros b. pose proof max_big as M. unfold b. split; [unfold inside, int_max; cbn; lia|]. split; [reflexivity|]. split.
  - right. split; [now right|]. split; [left; cbn; lia|]. unfold fits, padded, int_max. cbn. lia.
  - split; [intros x [-> | ->]%occurs2; lra|]. split.
    + exists (-1), (-1). split; [apply occurs2; auto|]. split; [apply occurs2; auto|]. lra.
    + split; [apply occurs2; auto|]. split; [apply occurs2; auto|]. intros x [-> | ->]%occurs2; lra.
Qed.

(** A destination of the right dimensions whose rows do not follow one another
    directly. *)
Definition column2 : view := mk_view 0 2 1 1.
Definition gaps : mat Z := mk_mat (Some (repeat 7%Z 17)) (mk_view 0 2 1 16).

Lemma occurs_column : forall a b x, occurs [a; b] column2 x <-> x = a \/ x = b.
Proof.
  intros a b x. split.
  - intros [r [c [[R1 C1] E]]]. cbn in R1, C1. assert (c = 0%Z) as -> by lia.
    assert (r = 0%Z \/ r = 1%Z) as [-> | ->] by lia; cbn in E; injection E as <-; auto.
  - intros [-> | ->]; [exists 0%Z, 0%Z|exists 1%Z, 0%Z]; (split; [split; cbn; lia|reflexivity]).
Qed.

Lemma gaps_wrong : forall junk, exists m p,
  inside column2 (lenZ [0; 255]) /\ proper gaps /\
  v_rows (m_view gaps) = v_rows column2 /\ v_cols (m_view gaps) = v_cols column2 /\ spread [0; 255] column2 /\
  quantize rops rwide rround junk [0; 255] column2 gaps = Ok (m, p) /\
  mget [0; 255] column2 1 0 = Ok 255 /\ ~ approximates m (p_scale p) (p_zero p) 1 0 255.
Proof.
  intros junk. pose proof max_big as M. pose proof min_small as Mn.
  assert (I : inside column2 (lenZ [0; 255])) by (unfold inside, int_max; cbn; lia).
  assert (Pg : proper gaps) by (exists (repeat 7%Z 17); split; [reflexivity|unfold inside, int_max; cbn; lia]).
  assert (Bd : forall x, occurs [0; 255] column2 x -> x <= float_max) by (intros x [-> | ->]%occurs_column; lra).
  assert (Sp : spread [0; 255] column2).
  { exists 0, 0. split; [apply occurs_column; auto|]. split; [apply occurs_column; auto|]. lra. }
  destruct (params_ok [0; 255] column2 I eq_refl Bd Sp) as [mn [mx [z (Ep & LT & Az & Omn & A & Bx & Mx)]]].
  assert (mn = 0) as ->.
  { apply occurs_column in Omn. pose proof (A 0 ltac:(apply occurs_column; auto)). lra. }
  assert (mx = 255) as ->.
  { pose proof (A 255 ltac:(apply occurs_column; auto)). destruct Bx as [Bx|Bx]; [lra|]. apply occurs_column in Bx. lra. }
  assert (z = 0%Z) as ->.
  { assert (B1 := Rle_abs (IZR z - - 0 / ((255 - 0) / 255))). assert (B2 := Rle_abs (- (IZR z - - 0 / ((255 - 0) / 255)))).
    rewrite Rabs_Ropp in B2. replace (- 0 / ((255 - 0) / 255)) with 0 in * by lra.
    assert (z <= 0)%Z by (apply half_le; lra). assert (0 <= z)%Z by (apply half_le; lra). lia. }
  destruct (value_ok 0 255 0 0 LT Az ltac:(lra)) as [q0 (E0 & _)].
  destruct (value_ok 0 255 0 255 LT Az ltac:(lra)) as [q1 (E1 & _)].
  exists (mk_mat (Some (q0 :: q1 :: repeat 7%Z 15)) (mk_view 0 2 1 16)), (mk_params ((255 - 0) / 255) 0).
  split; [exact I|]. split; [exact Pg|]. split; [reflexivity|]. split; [reflexivity|]. split; [exact Sp|].
  split; [|split; [reflexivity|]].
  - unfold quantize. cbn [v_stride v_cols v_rows column2]. cbn [Z.eqb negb andb Pos.eqb check bind]. rewrite Ep.
    cbn [bind gaps m_view v_cols v_rows]. cbn [Z.eqb negb orb Pos.eqb bind m_block].
    replace (int (1 * 2)) with (Ok 2%Z) by reflexivity. cbn [bind].
    unfold for_up. change (seqZ 0 (Z.to_nat (2 - 0))) with [0%Z; 1%Z]. cbn [for_each].
    cbn [v_off column2]. replace (getZ [0; 255] (0 + 0)) with (Ok 0) by reflexivity. cbn [bind]. rewrite E0. cbn [bind].
    replace (getZ [0; 255] (0 + 1)) with (Ok 255) by reflexivity. cbn [bind].
    change (v_off (m_view gaps)) with 0%Z.
    replace (setZ (repeat 7%Z 17) (0 + 0) q0) with (Ok (q0 :: repeat 7%Z 16)) by reflexivity. cbn [bind].
    rewrite E1. cbn [bind]. replace (setZ (q0 :: repeat 7%Z 16) (0 + 1) q1) with (Ok (q0 :: q1 :: repeat 7%Z 15)) by reflexivity.
    reflexivity.
  - intros [q (Eq & _ & Aq)]. cbn in Eq. injection Eq as <-. cbn [p_scale p_zero] in Aq.
    assert (B1 := Rle_abs (255 - (255 - 0) / 255 * IZR (7 - 0))). cbn [Z.sub Z.add Z.opp] in *. lra.
Qed.
