(** Quantisation over the real numbers. *)
From Coq Require Import ZArith Reals List Bool Lia Lra.
From Verif.Base Require Import Prelude Lemmas.
From Verif.Model Require Import Arith Vector Cmvn Matrix Quantize Exact.
From Verif.Spec Require Import MatrixSpec QuantizeSpec.
From Verif.Proof Require Import Loop Matrix MatrixResize.
Import ListNotations.
Open Scope R_scope.
Ltac Zify.zify_post_hook ::= Z.div_mod_to_equations.

Lemma half_le : forall a b, IZR a <= IZR b + / 2 -> (a <= b)%Z.
Proof.
  intros a b H. assert (L : (a < b + 1)%Z); [|lia]. apply lt_IZR. rewrite plus_IZR. lra.
Qed.

Lemma nearest_ok : forall x, exists z, nearest x = Some z /\ Rabs (IZR z - x) <= / 2.
Proof.
  intros x. unfold nearest, real_le. eexists. split; [reflexivity|]. destruct (Rle_dec 0 x).
  - destruct (base_Int_part (x + / 2)). apply Rabs_le. lra.
  - destruct (base_Int_part (- x + / 2)). rewrite opp_IZR. apply Rabs_le. lra.
Qed.

Lemma nearest_bounds : forall x z a b, nearest x = Some z -> IZR a <= x <= IZR b ->
  (a <= z <= b)%Z.
Proof.
  intros x z a b E H. destruct (nearest_ok x) as [z' [E' A]]. rewrite E in E'. injection E' as <-.
  assert (B := Rle_abs (IZR z - x)). assert (B' := Rle_abs (- (IZR z - x))).
  rewrite Rabs_Ropp in B'. split; apply half_le; lra.
Qed.

Lemma max_same : q_max rround = float_max.
Proof.
  unfold float_max. cbn [q_max rround].
  replace (2 ^ 127)%Z with (2 ^ 23 * 2 ^ 104)%Z by reflexivity. rewrite mult_IZR.
  rewrite <- Rmult_assoc. f_equal. rewrite Rmult_minus_distr_r, Rinv_l by (apply not_0_IZR; lia).
  rewrite <- mult_IZR, <- minus_IZR. reflexivity.
Qed.

Lemma min_same : q_min rround = float_min.
Proof. reflexivity. Qed.

Lemma min_pos : 0 < float_min.
Proof. unfold float_min. apply Rinv_0_lt_compat. apply IZR_lt. lia. Qed.

Section Run.
Variable b : list R.
Variable v : view.
Hypothesis In : inside v (lenZ b).
Hypothesis Tight : v_stride v = v_cols v.

Definition val (i : Z) : R := nth (Z.to_nat (v_off v + i)) b 0.

Lemma count_ok : int (v_cols v * v_rows v) = Ok (v_cols v * v_rows v)%Z /\ (0 < v_cols v * v_rows v)%Z /\
  (0 <= v_off v /\ v_off v + v_cols v * v_rows v <= lenZ b)%Z.
Proof.
  unfold inside, int_max in In. rewrite Tight in In. split; [apply int_ok; nia|]. split; nia.
Qed.

Lemma read_ok : forall i, (0 <= i < v_cols v * v_rows v)%Z -> getZ b (v_off v + i) = Ok (val i).
Proof.
  intros i I. destruct count_ok as (_ & _ & P & L). unfold val.
  pose proof (vget_nth _ b (v_off v + i)%Z 0 ltac:(lia)) as E. unfold vget in E.
  destruct (Z.ltb_spec (v_off v + i) (lenZ b)); [exact E|lia].
Qed.

Lemma occurs_val : forall x, occurs b v x <-> exists i, (0 <= i < v_cols v * v_rows v)%Z /\ x = val i.
Proof.
  intros x. split.
  - intros [r [c [I E]]]. rewrite mget_cell in E by assumption. exists (r * v_cols v + c)%Z.
    assert (J : (0 <= r * v_cols v + c < v_cols v * v_rows v)%Z) by (destruct I; nia). split; [exact J|].
    unfold cell in E. rewrite Tight in E. replace (v_off v + r * v_cols v + c)%Z with (v_off v + (r * v_cols v + c))%Z in E by lia.
    rewrite read_ok in E by exact J. congruence.
  - intros [i [I ->]]. exists (i / v_cols v)%Z, (i mod v_cols v)%Z.
    assert (Cp : (0 < v_cols v)%Z) by (unfold inside in In; lia).
    assert (J : index v (i / v_cols v) (i mod v_cols v)).
    { split; [split; [apply Z.div_pos; lia|apply Z.div_lt_upper_bound; lia]|apply Z.mod_pos_bound; lia]. }
    split; [exact J|]. rewrite mget_cell by assumption. unfold cell. rewrite Tight.
    pose proof (Z.div_mod i (v_cols v) ltac:(lia)) as E.
    replace (v_off v + i / v_cols v * v_cols v + i mod v_cols v)%Z with (v_off v + i)%Z by lia. now apply read_ok.
Qed.

Lemma min_max_ok : (forall x, occurs b v x -> x <= float_max) ->
  exists mn mx, find_min_max rops rround b v = Ok (mn, mx) /\ occurs b v mn /\
    (forall x, occurs b v x -> mn <= x <= mx) /\ (mx = float_min \/ occurs b v mx) /\ float_min <= mx.
Proof.
  intros Bd. destruct count_ok as (Ei & Np & _). unfold find_min_max. rewrite Ei. cbn [bind].
  rewrite max_same, min_same. match goal with |- context [for_up _ _ ?f _] => set (body := f) end.
  destruct (for_up_inv (R * R) (fun k '(mn, mx) =>
      (forall i, (0 <= i < k)%Z -> mn <= val i <= mx) /\
      (mn = float_max \/ exists i, (0 <= i < k)%Z /\ mn = val i) /\
      (mx = float_min \/ exists i, (0 <= i < k)%Z /\ mx = val i) /\ float_min <= mx)
    body 0%Z (v_cols v * v_rows v)%Z (float_max, float_min)) as [[mn mx] [-> (A & B & Bx & M)]].
  - lia.
  - split; [intros i I; lia|]. split; [now left|]. split; [now left|]. lra.
  - intros k [mn mx] K (A & B & Bx & M). unfold body. rewrite read_ok by lia. cbn [bind f_lt rops].
    eexists. split; [reflexivity|]. unfold real_lt.
    destruct (Rlt_dec (val k) mn) as [L1|L1]; destruct (Rlt_dec mx (val k)) as [L2|L2].
    + (split; [|split; [|split]]).
      * intros i I. destruct (Z.eq_dec i k) as [->|N]; [lra|]. specialize (A i ltac:(lia)). lra.
      * right. exists k. split; [lia|reflexivity].
      * right. exists k. split; [lia|reflexivity].
      * lra.
    + (split; [|split; [|split]]).
      * intros i I. destruct (Z.eq_dec i k) as [->|N]; [lra|]. specialize (A i ltac:(lia)). lra.
      * right. exists k. split; [lia|reflexivity].
      * destruct Bx as [Bx|[i [I Bx]]]; [now left|right]. exists i. split; [lia|assumption].
      * lra.
    + (split; [|split; [|split]]).
      * intros i I. destruct (Z.eq_dec i k) as [->|N]; [lra|]. specialize (A i ltac:(lia)). lra.
      * destruct B as [B|[i [I B]]]; [now left|right]. exists i. split; [lia|assumption].
      * right. exists k. split; [lia|reflexivity].
      * lra.
    + (split; [|split; [|split]]).
      * intros i I. destruct (Z.eq_dec i k) as [->|N]; [lra|]. specialize (A i ltac:(lia)). lra.
      * destruct B as [B|[i [I B]]]; [now left|right]. exists i. split; [lia|assumption].
      * destruct Bx as [Bx|[i [I Bx]]]; [now left|right]. exists i. split; [lia|assumption].
      * lra.
  - exists mn, mx. split; [reflexivity|]. split; [|split; [|split]].
    + destruct B as [B|[i [I B]]]; [|apply occurs_val; now exists i].
      apply occurs_val. exists 0%Z. split; [lia|]. specialize (A 0%Z ltac:(lia)).
      assert (H : val 0 <= float_max) by (apply Bd, occurs_val; exists 0%Z; split; [lia|reflexivity]). lra.
    + intros x Hx. apply occurs_val in Hx. destruct Hx as [i [I ->]]. now apply A.
    + destruct Bx as [Bx|[i [I Bx]]]; [now left|right]. apply occurs_val. now exists i.
    + exact M.
Qed.

Lemma params_ok : (forall x, occurs b v x -> x <= float_max) -> spread b v ->
  exists mn mx z, quant_params rops rwide rround b v = Ok (mk_params ((mx - mn) / 255) z) /\
    mn < mx /\ Rabs (IZR z - - mn / ((mx - mn) / 255)) <= / 2 /\
    occurs b v mn /\ (forall x, occurs b v x -> mn <= x <= mx) /\
    (mx = float_min \/ occurs b v mx) /\ float_min <= mx.
Proof.
  intros Bd (x & y & Ox & Oy & S). destruct (min_max_ok Bd) as [mn [mx (E & Omn & A & Bx & M)]].
  exists mn, mx. unfold quant_params. rewrite E. cbn [bind f_sub wd_div wd_of wd_neg wd_int wd_to q_round rops rwide rround].
  pose proof (A x Ox) as Ax. pose proof (A y Oy) as Ay. pose proof min_pos as P.
  assert (K : 255 * mn <= IZR (2 ^ 31) * (mx - mn)).
  { apply Rle_trans with (255 * x); [lra|]. apply Rle_trans with (1 := S).
    apply Rmult_le_compat_l; [apply IZR_le; lia|lra]. }
  assert (LT : mn < mx).
  { destruct (Rle_dec mn 0); [lra|]. apply Rnot_le_lt in n.
    assert (H : 0 < IZR (2 ^ 31) * (mx - mn)) by lra.
    assert (Q : 0 < IZR (2 ^ 31)) by (apply IZR_lt; lia).
    apply Rmult_lt_reg_l with (1 := Q) . lra. }
  set (t := - mn / ((mx - mn) / 255)).
  assert (Et : t * (mx - mn) = - (255 * mn)) by (unfold t; field; lra).
  assert (Lo : IZR (- 2 ^ 31) <= t).
  { rewrite opp_IZR. apply Rmult_le_reg_r with (mx - mn); [lra|]. rewrite Et. lra. }
  assert (Hi : t <= IZR 255).
  { apply Rmult_le_reg_r with (mx - mn); [lra|]. rewrite Et. lra. }
  destruct (nearest_ok t) as [z [Ez Az]]. exists z. rewrite Ez.
  destruct (nearest_bounds t z _ _ Ez (conj Lo Hi)) as [Z1 Z2].
  replace (in_int32 z) with true by (symmetry; apply in_int32_iff; unfold int_min, int_max; lia). cbn [check bind].
  split; [reflexivity|]. split; [exact LT|]. split; [exact Az|]. auto.
Qed.

Lemma value_ok : forall mn mx z x, mn < mx -> Rabs (IZR z - - mn / ((mx - mn) / 255)) <= / 2 -> mn <= x <= mx ->
  exists q, quant_value rops rround (mk_params ((mx - mn) / 255) z) x = Ok q /\ (0 <= q <= 255)%Z /\
    Rabs (x - (mx - mn) / 255 * IZR (q - z)) <= (mx - mn) / 255 / 2.
Proof.
  intros mn mx z x LT Az Hx. set (s := (mx - mn) / 255) in *. assert (Sp : 0 < s) by (unfold s; lra).
  set (t := x / s + IZR z).
  assert (A1 := Rle_abs (IZR z - - mn / s)). assert (A2 := Rle_abs (- (IZR z - - mn / s))). rewrite Rabs_Ropp in A2.
  assert (Q1 : mn / s <= x / s) by (apply Rmult_le_compat_r; [left; now apply Rinv_0_lt_compat|lra]).
  assert (Q2 : x / s <= mx / s) by (apply Rmult_le_compat_r; [left; now apply Rinv_0_lt_compat|lra]).
  assert (Q3 : mx / s = mn / s + 255) by (unfold s; field; lra).
  assert (Q4 : - mn / s = - (mn / s)) by (field; lra).
  assert (T : - / 2 <= t <= 255 + / 2) by (unfold t; lra).
  unfold quant_value. cbn [p_scale p_zero f_add f_div f_int f_lt f_zero q_roundf rops rround]. fold t.
  set (u := if real_lt 255 t then 255 else t). set (w := if real_lt 0 u then u else 0).
  assert (W : IZR 0 <= w <= IZR 255 /\ (w = t \/ (w = 0 /\ t < 0) \/ (w = 255 /\ 255 < t) \/ (w = 0 /\ t = 0))).
  { unfold w, u, real_lt. destruct (Rlt_dec 255 t); [destruct (Rlt_dec 0 255); [|lra]|destruct (Rlt_dec 0 t)]; try lra. }
  destruct W as [W1 W2]. destruct (nearest_ok w) as [q [Eq Aq]]. rewrite Eq.
  pose proof (nearest_bounds w q _ _ Eq W1) as B. replace (is_byte q) with true by (unfold is_byte; lia). cbn [check bind].
  exists q. split; [reflexivity|]. split; [exact B|].
  assert (C : Rabs (IZR q - t) <= / 2).
  { apply Rabs_le. assert (C1 := Rle_abs (IZR q - w)). assert (C2 := Rle_abs (- (IZR q - w))). rewrite Rabs_Ropp in C2.
    destruct W2 as [->|[[-> Ht]|[[-> Ht]|[-> Ht]]]]; [lra| | |lra].
    - assert (q = 0%Z) as ->; [|lra]. assert (q <= 0)%Z by (apply half_le; lra). lia.
    - assert (q = 255%Z) as ->; [|lra]. assert (255 <= q)%Z by (apply half_le; lra). lia. }
  replace (x - s * IZR (q - z)) with (- (s * (IZR q - t))).
  - rewrite Rabs_Ropp, Rabs_mult, (Rabs_right s) by lra. apply Rle_trans with (s * / 2); [|lra].
    apply Rmult_le_compat_l; [lra|exact C].
  - unfold t. rewrite minus_IZR. field. lra.
Qed.
End Run.

Lemma ready_ok : forall junk v dest, receives v dest ->
  exists d w, (if negb (v_cols (m_view dest) =? v_cols v)%Z || negb (v_rows (m_view dest) =? v_rows v)%Z
               then mat_resize 0%Z 1 junk dest (v_rows v) (v_cols v) Undefined StrideEqualNumCols
               else Ok dest) = Ok (mk_mat (Some d) w) /\
    inside w (lenZ d) /\ v_rows w = v_rows v /\ v_cols w = v_cols v /\ v_stride w = v_cols v.
Proof.
  intros junk v dest [([d [Ed I]] & ER & EC & ES)|(Pd & Df & Ft)].
  - rewrite ER, EC, !Z.eqb_refl. cbn [negb orb]. destruct dest as [bb w]. cbn in *. subst bb. exists d, w. auto.
  - assert (E : negb (v_cols (m_view dest) =? v_cols v)%Z || negb (v_rows (m_view dest) =? v_rows v)%Z = true).
    { destruct (Z.eqb_spec (v_cols (m_view dest)) (v_cols v)); [|reflexivity].
      destruct (Z.eqb_spec (v_rows (m_view dest)) (v_rows v)); [lia|reflexivity]. }
    rewrite E. unfold mat_resize, resize_fresh.
    destruct (init_ok 1 junk ltac:(split; [lia|reflexivity]) (v_rows v) (v_cols v) StrideEqualNumCols Ft) as [d (Ei & _ & I)].
    exists d, (mk_view 0 (v_rows v) (v_cols v) (v_cols v)).
    split; [|split; [exact I|cbn; auto]].
    rewrite Ei. cbn [bind]. destruct (m_block dest); [|reflexivity].
    destruct (Z.eqb_spec (v_rows v) (v_rows (m_view dest))) as [E1|]; [|reflexivity].
    destruct (Z.eqb_spec (v_cols v) (v_cols (m_view dest))) as [E2|]; [|reflexivity]. lia.
Qed.

Lemma quantize_ok : forall junk b v dest, inside v (lenZ b) -> v_stride v = v_cols v -> receives v dest ->
  (forall x, occurs b v x -> x <= float_max) -> spread b v ->
  exists m p, quantize rops rwide rround junk b v dest = Ok (m, p) /\
    proper m /\ v_rows (m_view m) = v_rows v /\ v_cols (m_view m) = v_cols v /\ v_stride (m_view m) = v_cols v /\
    0 < p_scale p /\
    (forall lo hi, extremes b v lo hi -> 255 * p_scale p = Rmax hi float_min - lo /\
       Rabs (IZR (p_zero p) + lo / p_scale p) <= / 2) /\
    forall r c x, index v r c -> mget b v r c = Ok x -> approximates m (p_scale p) (p_zero p) r c x.
Proof.
  intros junk b v dest I T Rc Bd Sp. destruct (params_ok b v I T Bd Sp) as [mn [mx [z (Ep & LT & Az & Omn & A & Bx & M)]]].
  destruct (ready_ok junk v dest Rc) as [d [w (Ed & Iw & ER & EC & ES)]].
  destruct (count_ok b v I T) as (Ei & Np & _ & _).
  unfold quantize. rewrite T, Z.eqb_refl. cbn [check bind].
  assert (Nz : negb (v_cols v =? 0)%Z && negb (v_rows v =? 0)%Z = true).
  { destruct (Z.eqb_spec (v_cols v) 0); [unfold inside in I; lia|]. destruct (Z.eqb_spec (v_rows v) 0); [unfold inside in I; lia|reflexivity]. }
  rewrite Nz. cbn [check bind]. rewrite Ep. cbn [bind]. rewrite Ed. cbn [bind]. rewrite Ei. cbn [bind m_block m_view].
  set (p := mk_params ((mx - mn) / 255) z) in *.
  pose (f i := match quant_value rops rround p (val b v i) with Ok q => q | Fault _ => 0%Z end).
  assert (Fq : forall i, (0 <= i < v_cols v * v_rows v)%Z -> quant_value rops rround p (val b v i) = Ok (f i) /\
    (0 <= f i <= 255)%Z /\ Rabs (val b v i - (mx - mn) / 255 * IZR (f i - z)) <= (mx - mn) / 255 / 2).
  { intros i Hi. destruct (value_ok mn mx z (val b v i) LT Az) as [q (Eq & Bq & Aq)].
    - apply A. apply occurs_val; [assumption|assumption|]. exists i. auto.
    - unfold f, p. rewrite Eq. auto. }
  match goal with |- context [for_up _ _ ?f _] => set (body := f) end.
  assert (Lw : (0 <= v_off w /\ v_off w + v_cols v * v_rows v <= lenZ d)%Z) by (unfold inside in Iw; rewrite ER, EC, ES in Iw; nia).
  destruct (fill_row body d (v_off w) (v_cols v * v_rows v) f ltac:(lia) ltac:(lia) ltac:(lia)) as [d' (-> & Ld & Vd & _)].
  { intros d0 j J _. unfold body. rewrite (read_ok b v I T) by exact J. cbn [bind]. rewrite (proj1 (Fq j J)). reflexivity. }
  cbn [bind]. exists (mk_mat (Some d') w), p. split; [reflexivity|]. cbn [m_view].
  split; [exists d'; split; [reflexivity|]; cbn [m_view]; rewrite Ld; exact Iw|].
  split; [exact ER|]. split; [exact EC|]. split; [exact ES|].
  split; [cbn; lra|]. split.
  - intros lo hi (Ol & Oh & Al). cbn [p p_scale].
    assert (lo = mn) as -> by (apply Rle_antisym; [apply Al, Omn|apply A, Ol]).
    assert (E : mx = Rmax hi float_min).
    { pose proof (proj2 (A hi Oh)). unfold Rmax. destruct (Rle_dec hi float_min); destruct Bx as [Bx|Bx]; try lra.
      - pose proof (proj2 (Al mx Bx)). lra.
      - pose proof (proj2 (Al mx Bx)). lra. }
    rewrite <- E. split; [field|]. cbn [p p_scale p_zero].
    replace (IZR z + mn / ((mx - mn) / 255)) with (IZR z - - mn / ((mx - mn) / 255)) by (field; lra). exact Az.
  - intros r c x J Ex. rewrite mget_cell in Ex by assumption. unfold cell in Ex. rewrite T in Ex.
    assert (Jr : (0 <= r * v_cols v + c < v_cols v * v_rows v)%Z) by (destruct J; nia).
    replace (v_off v + r * v_cols v + c)%Z with (v_off v + (r * v_cols v + c))%Z in Ex by lia.
    rewrite (read_ok b v I T) in Ex by exact Jr. injection Ex as <-.
    destruct (Fq _ Jr) as (_ & Bq & Aq). exists (f (r * v_cols v + c)%Z). split; [|split; [exact Bq|exact Aq]].
    unfold element. cbn [m_block m_view]. rewrite mget_cell.
    + unfold cell. rewrite ES. replace (v_off w + r * v_cols v + c)%Z with (v_off w + (r * v_cols v + c))%Z by lia. now apply Vd.
    + unfold lenZ in Ld. unfold lenZ. rewrite Ld. exact Iw.
    + unfold index. rewrite ER, EC. exact J.
Qed.
