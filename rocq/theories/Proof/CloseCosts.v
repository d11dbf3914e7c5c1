(** Nothing is pruned while the costs of all paths are close together. *)
From Coq Require Import ZArith List Bool Lia Floats.SpecFloat.
From Verif.Base Require Import Prelude Lemmas.
From Verif.Model Require Import Arith HashTable Fst Decoder Ieee.
From Verif.Spec Require Import DecoderSpec ExpSpec CloseSpec.
From Verif.Proof Require Import Loop Rne Ieee IeeeLaws ExpLimits DecoderBase Decoder DecoderRun DecoderClosed DecoderCutoff DecoderBest DecoderMain.
Import ListNotations.
Open Scope Z_scope.

Section Keys.
Variables S top : Z.
Hypothesis HS : 2200 <= S.
Hypothesis Htop : 2 ^ (1024 + S) <= top.
Let K {prec emax} (x : fl prec emax) : option Z := key S top (fl_val x).
Notation n32 := (near_signed 24 128 S top).
Notation n64 := (near_signed 53 1024 S top).
Variable lib : library.
Notation O := (ieee lib).
Notation X := ieee_wide.

Lemma whole32 : forall n, Z.abs n < 2 ^ 24 -> n32 (n * 2 ^ S) = n * 2 ^ S.
Proof. intros n H. pose proof (exact32 S top HS n 0 H ltac:(lia)) as E. rewrite Z.add_0_l in E. exact E. Qed.
Lemma whole64 : forall n, Z.abs n < 2 ^ 24 -> n64 (n * 2 ^ S) = n * 2 ^ S.
Proof. intros n H. pose proof (exact64 S top HS n 0 H ltac:(lia)) as E. rewrite Z.add_0_l in E. exact E. Qed.

Lemma small : forall n, Z.abs n < 2 ^ 24 -> Z.abs (n * 2 ^ S) < 2 ^ (128 + S).
Proof.
  intros n H. assert (0 < 2 ^ S) by (apply Z.pow_pos_nonneg; lia). rewrite Z.abs_mul, (Z.abs_eq (2 ^ S)) by lia.
  rewrite Z.pow_add_r by lia. apply Z.mul_lt_mono_pos_r; [assumption|]. change (2 ^ 24) with 16777216 in H. change (2 ^ 128) with 340282366920938463463374607431768211456. lia.
Qed.

Lemma within_key : forall a x, Z.abs a <= 8000000 ->
  within15 a x -> is_finite (fl_val x) = true /\ exists k, K x = Some k /\ a * 2 ^ S <= k <= (a + 15) * 2 ^ S.
Proof.
  intros a x Ha (A & B). change (2 ^ 24) with 16777216 in *.
  apply (above_key32 S top HS Htop) in A; [|change (2 ^ 24) with 16777216; lia|lia].
  apply (below_key32 S top HS Htop) in B; [|change (2 ^ 24) with 16777216; lia|lia].
  destruct A as (k & Kk & A). destruct B as (k' & Kk' & B). rewrite Kk in Kk'. apply some_inj in Kk'. subst k'.
  rewrite Z.add_0_l in A, B. split; [|exists k; auto].
  apply (finite32 S top HS Htop x k Kk).
  pose proof (small a ltac:(change (2 ^ 24) with 16777216; lia)). pose proof (small (a + 15) ltac:(change (2 ^ 24) with 16777216; lia)). lia.
Qed.

(** A cost from the interval and the beam: 16 above its lower end. *)
Definition high (a : Z) (x : float32) : Prop :=
  is_finite (fl_val x) = true /\ exists k, K x = Some k /\ (a + 16) * 2 ^ S <= k.

Lemma cutoff_high : forall a t beam, Z.abs a <= 8000000 -> within15 a t ->
  is_finite (fl_val beam) = true -> K beam = Some (16 * 2 ^ S) ->
  high a (x_narrow X (x_add X (x_wide X t) (x_wide X beam))).
Proof.
  intros a t beam Ha W Fb Kb. destruct (within_key a t Ha W) as (Ft & k & Kt & B).
  assert (Ka : K (x_add X (x_wide X t) (x_wide X beam)) = Some (n64 (k + 16 * 2 ^ S))).
  { apply (add64_key S top HS); rewrite ?(x_wide_finite S top HS Htop), ?(x_wide_key S top HS); assumption. }
  pose proof (mono64 S top HS Htop ((a + 16) * 2 ^ S) (k + 16 * 2 ^ S) ltac:(lia)) as M1.
  pose proof (mono64 S top HS Htop (k + 16 * 2 ^ S) ((a + 31) * 2 ^ S) ltac:(lia)) as M2.
  rewrite whole64 in M1 by (change (2 ^ 24) with 16777216; lia). rewrite whole64 in M2 by (change (2 ^ 24) with 16777216; lia).
  pose proof (small (a + 16) ltac:(change (2 ^ 24) with 16777216; lia)). pose proof (small (a + 31) ltac:(change (2 ^ 24) with 16777216; lia)).
  pose proof (big S top HS) as Hb.
  assert (Fa : is_finite (fl_val (x_add X (x_wide X t) (x_wide X beam))) = true) by (apply (finite64 S top Htop _ _ Ka); lia).
  pose proof (x_narrow_key S top HS _ _ Fa Ka) as Kn.
  pose proof (mono32 S top HS Htop _ _ M1) as N1. pose proof (mono32 S top HS Htop _ _ M2) as N2.
  rewrite whole32 in N1 by (change (2 ^ 24) with 16777216; lia). rewrite whole32 in N2 by (change (2 ^ 24) with 16777216; lia).
  split; [|eauto]. apply (finite32 S top HS Htop _ _ Kn). lia.
Qed.

Lemma high_over : forall a w c, Z.abs a <= 8000000 -> high a w -> within15 a c -> f_lt O w c = false.
Proof.
  intros a w c Ha (Fw & k & Kw & B) W. destruct (within_key a c Ha W) as (Fc & kc & Kc & Bc).
  change (f_lt O w c) with (SFltb (fl_val w) (fl_val c)). rewrite (lt32 S top HS Htop). unfold K in *. rewrite Kw, Kc. cbn [less].
  apply Z.ltb_ge. assert (0 < 2 ^ S) by (apply Z.pow_pos_nonneg; lia). lia.
Qed.

Lemma high_before : forall a next c, Z.abs a <= 8000000 -> high a (x_narrow X next) -> within15 a c -> x_lt X next (x_wide X c) = false.
Proof.
  intros a next c Ha (Fw & k & Kw & B) W. destruct (within_key a c Ha W) as (Fc & kc & Kc & Bc).
  pose proof (x_narrow_finite S top HS _ Fw) as Fn. destruct (finite_key S top _ Fn) as (kn & Kn).
  pose proof (x_narrow_key S top HS _ _ Fn Kn) as Kn'. unfold K in *. rewrite Kn' in Kw. apply some_inj in Kw. subst k.
  change (x_lt X next (x_wide X c)) with (SFltb (fl_val next) (fl_val (x_wide X c))). rewrite (lt64 S top HS Htop), Kn.
  rewrite (x_wide_key S top HS), Kc. cbn [less]. apply Z.ltb_ge. assert (0 < 2 ^ S) by (apply Z.pow_pos_nonneg; lia).
  destruct (Z.le_gt_cases kc kn); auto. pose proof (mono32 S top HS Htop kn ((a + 15) * 2 ^ S) ltac:(lia)) as M.
  rewrite whole32 in M by (change (2 ^ 24) with 16777216; lia). lia.
Qed.

Lemma high_after : forall a cut x, Z.abs a <= 8000000 -> high a cut -> within15 a (x_narrow X x) -> x_lt X (x_wide X cut) x = false.
Proof.
  intros a cut x Ha (Fw & k & Kw & B) W. destruct (within_key a _ Ha W) as (Fc & kc & Kc & Bc).
  pose proof (x_narrow_finite S top HS _ Fc) as Fn. destruct (finite_key S top _ Fn) as (kn & Kn).
  pose proof (x_narrow_key S top HS _ _ Fn Kn) as Kn'. unfold K in *. rewrite Kn' in Kc. apply some_inj in Kc. subst kc.
  change (x_lt X (x_wide X cut) x) with (SFltb (fl_val (x_wide X cut)) (fl_val x)). rewrite (lt64 S top HS Htop), Kn.
  rewrite (x_wide_key S top HS), Kw. cbn [less]. apply Z.ltb_ge. assert (0 < 2 ^ S) by (apply Z.pow_pos_nonneg; lia).
  destruct (Z.le_gt_cases kn k); auto. pose proof (mono32 S top HS Htop ((a + 16) * 2 ^ S) kn ltac:(lia)) as M.
  rewrite whole32 in M by (change (2 ^ 24) with 16777216; lia). lia.
Qed.

Lemma beam_key : is_finite (fl_val (f_int O 16)) = true /\ K (f_int O 16) = Some (16 * 2 ^ S).
Proof.
  split; [reflexivity|]. change (fl_val (f_int O 16)) with (binary_normalize 24 128 16 0 false).
  unfold K. change (fl_val (f_int O 16)) with (binary_normalize 24 128 16 0 false).
  destruct (normalize_val 24 128 ltac:(lia) ltac:(lia) S top (S32 S top HS) 16 0 false ltac:(lia)) as (_ & Kn). rewrite Kn, Z.add_0_l.
  now rewrite whole32 by (change (2 ^ 24) with 16777216; lia).
Qed.

(** Sums in [double] of [float] costs keep their order. *)
Definition no_less (y0 y : float64) (b : Z) : Prop :=
  y = y0 \/ (is_finite (fl_val y0) = true /\ is_finite (fl_val y) = true /\
             exists k0 k, K y0 = Some k0 /\ K y = Some k /\ k0 <= k /\ Z.abs k0 <= 2 ^ (b + S) /\ Z.abs k <= 2 ^ (b + S)).

Lemma wide_no_less : forall c0 c, is_finite (fl_val c0) = true -> is_finite (fl_val c) = true -> f_lt O c c0 = false ->
  no_less (x_wide X c0) (x_wide X c) 128.
Proof.
  intros c0 c F0 F L. right. rewrite !(x_wide_finite S top HS Htop). split; [exact F0|]. split; [exact F|].
  destruct (finite_key S top _ F0) as (k0 & K0). destruct (finite_key S top _ F) as (k & Kk).
  exists k0, k. unfold K. rewrite !(x_wide_key S top HS). split; [exact K0|]. split; [exact Kk|].
  change (f_lt O c c0) with (SFltb (fl_val c) (fl_val c0)) in L. rewrite (lt32 S top HS Htop), K0, Kk in L. cbn [less] in L. apply Z.ltb_ge in L.
  pose proof (bound32 S top HS c0 k0 F0 K0). pose proof (bound32 S top HS c k F Kk). lia.
Qed.

Lemma add_no_less : forall y0 y w b, 0 <= b < 1000 -> 128 <= b -> no_less y0 y b ->
  no_less (x_add X y0 (x_wide X w)) (x_add X y (x_wide X w)) (b + 1).
Proof.
  intros y0 y w b Hb Hb' [->|(F0 & F & k0 & k & K0 & Kk & L & B0 & B)]; [now left|].
  destruct (is_finite (fl_val w)) eqn:Fw.
  - destruct (finite_key S top _ Fw) as (kw & Kw). pose proof (bound32 S top HS w kw Fw Kw) as Bw.
    assert (Fw' : is_finite (fl_val (x_wide X w)) = true) by (rewrite (x_wide_finite S top HS Htop); exact Fw).
    assert (Kw' : K (x_wide X w) = Some kw) by (unfold K; rewrite (x_wide_key S top HS); exact Kw).
    pose proof (add64_key S top HS _ _ _ _ F0 Fw' K0 Kw') as S0. pose proof (add64_key S top HS _ _ _ _ F Fw' Kk Kw') as S1.
    assert (P : 2 ^ (b + 1 + S) = 2 * 2 ^ (b + S)) by (replace (b + 1 + S) with (1 + (b + S)) by lia; rewrite Z.pow_add_r by lia; reflexivity).
    assert (P' : 2 ^ (128 + S) <= 2 ^ (b + S)) by (apply Z.pow_le_mono_r; lia).
    assert (P'' : 2 ^ (b + 1 + S) < 2 ^ (1024 + S)) by (apply Z.pow_lt_mono_r; lia).
    pose proof (n64_pow S top HS (b + 1) ltac:(lia)) as N.
    assert (Q : forall z, Z.abs z <= 2 ^ (b + 1 + S) -> Z.abs (n64 z) <= 2 ^ (b + 1 + S)).
    { intros z Hz. pose proof (mono64 S top HS Htop z (2 ^ (b + 1 + S)) ltac:(lia)). pose proof (mono64 S top HS Htop (- 2 ^ (b + 1 + S)) z ltac:(lia)) as M.
      assert (No : n64 (- 2 ^ (b + 1 + S)) = - n64 (2 ^ (b + 1 + S))) by (apply near_signed_opp; try lia; exact (S64 S top HS)).
      rewrite No, N in M. lia. }
    pose proof (Q (k0 + kw) ltac:(lia)) as Q0. pose proof (Q (k + kw) ltac:(lia)) as Q1.
    right. split; [apply (finite64 S top Htop _ _ S0); lia|]. split; [apply (finite64 S top Htop _ _ S1); lia|].
    exists (n64 (k0 + kw)), (n64 (k + kw)). split; [exact S0|]. split; [exact S1|]. split; [apply (mono64 S top HS Htop); lia|auto].
  - left. apply fl_eq. change (x_add X y (x_wide X w)) with (f64 (SFadd 53 1024 (fl_val y) (fl_val (x_wide X w)))).
    change (x_add X y0 (x_wide X w)) with (f64 (SFadd 53 1024 (fl_val y0) (fl_val (x_wide X w)))). f_equal. f_equal.
    pose proof (x_wide_finite S top HS Htop w) as Fx. rewrite Fw in Fx.
    destruct (fl_val (x_wide X w)); try discriminate Fx; destruct (fl_val y0); try discriminate F0; destruct (fl_val y); try discriminate F; reflexivity.
Qed.

Lemma kept : forall y0 y b total, no_less y0 y b -> x_is_inf X y0 = true \/ x_lt X y0 total = false ->
  x_is_inf X y = true \/ x_lt X y total = false.
Proof.
  intros y0 y b total [->|(F0 & F & k0 & k & K0 & Kk & L & _)] H; [exact H|]. right.
  assert (N : x_is_inf X y0 = false) by (cbn [x_is_inf ieee_wide]; destruct (fl_val y0); try reflexivity; discriminate F0).
  destruct H as [H|H]; [rewrite N in H; discriminate|].
  change (x_lt X y0 total) with (SFltb (fl_val y0) (fl_val total)) in H. change (x_lt X y total) with (SFltb (fl_val y) (fl_val total)).
  rewrite (lt64 S top HS Htop) in *. unfold K in *. rewrite K0 in H. rewrite Kk. unfold less in *. destruct (key S top (fl_val total)); auto.
  apply Z.ltb_ge in H. apply Z.ltb_ge. lia.
Qed.
End Keys.

Section Unpruned.
Context {C : Type} (lib : library) (cfg : config float32 C) (wm : option (word_model float32)) (good : C -> Prop).
Notation O := (ieee lib).
Notation X := ieee_wide.
Hypothesis Hlm : lm_implements (c_lm cfg) wm good.
Hypothesis Hbeam : c_beam cfg = f_int O 16.
Notation g := (c_graph cfg).
Notation path := (path O X g (c_pdf cfg) (c_scale cfg) wm).
Notation by_path := (by_path O X cfg wm).
Notation ready := (Decoder.ready good).
Let S0 : Z := 2200.
Let top0 : Z := 2 ^ (1024 + 2200).
Let HS : 2200 <= S0 := Z.le_refl _.
Let Htop : 2 ^ (1024 + S0) <= top0 := Z.le_refl _.

(** What is known of the frames [fs]. *)
Definition close_at (fs : list (list float32)) : Prop :=
  exists a states, Z.abs a <= 8000000 /\ lenZ states <= 30000 /\
    (forall s c ws, path fs s c ws -> In s states /\ within15 a c) /\
    (wm = None \/
     forall logp before s l c ws arc ac, fs = logp :: before -> path before (s, l) c ws ->
       arc_from g s arc -> input_label arc <> 0 -> acoustic O X (c_pdf cfg) (c_scale cfg) logp arc ac ->
       within15 a (f_add O (f_add O c (weight arc)) ac)).

Lemma rounding16 : rounding O X (c_beam cfg).
Proof. rewrite Hbeam. apply ieee_rounding; reflexivity. Qed.

Lemma cutoff_few : forall fs d cutoff ab bt, ready (by_path fs) d -> close_at fs ->
  get_cutoff O X cfg (d_toks d) = Ok (cutoff, ab, bt) ->
  ab = f_int O 16 /\ In bt (d_toks d) /\ f_finite O (x_narrow X cutoff) = true /\
  forall t, In t (d_toks d) -> f_lt O (x_narrow X cutoff) (k_cost t) = false.
Proof.
  intros fs d cutoff ab bt [I Ep] (a & states & Ha & Ls & Hp & _) E.
  assert (Hw : forall t, In t (d_toks d) -> In (k_state t) states /\ within15 a (k_cost t)).
  { intros t J. destruct (di_toks _ _ _ _ I t J) as (ws & _ & P). exact (Hp _ _ _ P). }
  assert (Few : lenZ (d_toks d) <= 30000).
  { assert (L : (length (map k_state (d_toks d)) <= length states)%nat).
    { apply NoDup_incl_length; [exact (ix_nodup _ _ (di_ix _ _ _ _ I))|]. intros s J. apply in_map_iff in J. destruct J as (t & <- & J). exact (proj1 (Hw t J)). }
    rewrite map_length in L. unfold lenZ in *. lia. }
  unfold get_cutoff in E. inv_bind E. apply getZ_in in Hb.
  destruct (fold_left _ (d_toks d) _) as [[[x costs] b] t'] eqn:Ef.
  destruct (cutoff_best _ X (r_xlt _ _ _ rounding16) _ _ _ _ _ _ _ _ _ _ Ef) as [B1 B2].
  destruct B1 as [[-> ->]|(Jb & Eb & Lb)].
  { exfalso. destruct (within_key S0 top0 HS Htop a _ Ha (proj2 (Hw _ Hb))) as (Ft & _).
    assert (Q : x_lt X (x_wide X (k_cost a0)) (x_inf X) = true).
    { apply (r_below_inf _ _ _ rounding16). rewrite (r_wide_finite _ _ _ rounding16). exact Ft. }
    rewrite (B2 _ Hb) in Q. discriminate. }
  subst b. destruct (within_key S0 top0 HS Htop a _ Ha (proj2 (Hw _ Jb))) as (Ft & _).
  rewrite (r_wide_finite _ _ _ rounding16) in E. change (f_finite O (k_cost t')) with (is_finite (fl_val (k_cost t'))) in E. rewrite Ft in E.
  cbn [negb] in E. cbv zeta in E. unfold kBeamSize in E. replace (30000 <? lenZ (d_toks d)) with false in E by (symmetry; apply Z.ltb_ge; exact Few).
  cbn [bind] in E. rewrite (r_nan _ _ _ rounding16) in E. injection E as <- <- <-. rewrite Hbeam.
  destruct (beam_key S0 top0 HS lib) as (Fb & Kb).
  pose proof (cutoff_high S0 top0 HS Htop a (k_cost t') (f_int O 16) Ha (proj2 (Hw _ Jb)) Fb Kb) as Hh.
  split; [reflexivity|]. split; [exact Jb|]. split; [exact (proj1 Hh)|]. intros t J.
  exact (high_over S0 top0 HS Htop lib a _ _ Ha Hh (proj2 (Hw t J))).
Qed.

Lemma close_frame : forall fs fuel d logp d', ready (by_path fs) d -> ready (by_path (logp :: fs)) d' -> close_at fs -> close_at (logp :: fs) ->
  process O X cfg collector fuel d logp = Ok (d', true) -> frame_unpruned O X cfg wm fuel d logp.
Proof.
  intros fs fuel d logp d'0 Rd Rd' Hc Hc' E0 cutoff ab bt d1 cut d' Eg E1 E. rewrite E0 in E. injection E as <-.
  destruct (cutoff_few fs d cutoff ab bt Rd Hc Eg) as (-> & Jb & Fw & Lw).
  destruct Rd as [I Ep].
  destruct (process_emitting_next O X cfg rounding16 wm good Hlm _ _ _ _ _ _ _ I Ep (by_path_emit _ _ _ _ fs logp) E1 _ _ _ Eg Fw Jb (Lw _ Jb))
    as (next & Ecut & Fn & _).
  destruct Hc' as (a & states & Ha & _ & Hp & Hx).
  assert (Ht : forall t arc ac, In t (d_toks d) -> arc_from g (Datatypes.fst (k_state t)) arc -> input_label arc <> 0 ->
    acoustic O X (c_pdf cfg) (c_scale cfg) logp arc ac -> within15 a (f_add O (f_add O (k_cost t) (weight arc)) ac)).
  { intros t arc ac J Af NZ Ac. destruct (di_toks _ _ _ _ I t J) as (ws & _ & P).
    destruct (k_state t) as (s & l) eqn:Es. cbn [Datatypes.fst] in Af.
    destruct Hx as [N|Hx]; [|exact (Hx logp fs s l (k_cost t) (rev ws) arc ac eq_refl P Af NZ Ac)].
    pose proof (path_emit _ _ _ _ _ _ _ logp _ _ _ _ arc l None ac P Af NZ Ac ltac:(unfold lm_after; rewrite N; reflexivity)) as P'.
    destruct (Hp _ _ _ P') as (_ & W). unfold cost_after in W.
    destruct (within_key S0 top0 HS Htop a _ Ha W) as (Fx & _).
    pose proof (x_narrow_finite S0 top0 HS _ Fx) as Fy. rewrite (x_wide_finite S0 top0 HS Htop) in Fy.
    rewrite (r_narrow_wide _ _ _ rounding16) in W by exact Fy. exact W. }
  assert (Hh : high S0 top0 a cut).
  { destruct Fn as [->|(from & arc & ac & Jf & _ & Af & NZ & Ac & -> & _)].
    - exfalso. unfold process in E0. rewrite E1 in E0. cbn [bind] in E0. rewrite Ecut in E0. cbn in E0. discriminate.
    - rewrite Ecut. destruct (beam_key S0 top0 HS lib) as (Fb & Kb). apply (cutoff_high S0 top0 HS Htop a _ _ Ha); eauto. }
  split.
  - intros t J. split; [exact (Lw t J)|]. intros arc ac Af NZ Ac nx En.
    apply (high_before S0 top0 HS Htop a); [exact Ha|rewrite En; exact Hh|eauto].
  - intros t arc l' lw J Af Z0 El. apply (high_after S0 top0 HS Htop a); [exact Ha|exact Hh|].
    destruct Rd' as [I' _]. destruct (di_toks _ _ _ _ I' t J) as (ws & _ & P). destruct (k_state t) as (s & l) eqn:Es.
    exact (proj2 (Hp _ _ _ (path_eps _ _ _ _ _ _ _ _ _ _ _ _ _ _ P Af Z0 El))).
Qed.

Lemma close_run : forall fuel frames d fs, ready (by_path fs) d ->
  (forall later fs', rev frames ++ fs = later ++ fs' -> close_at fs') ->
  collections_safe O X cfg fuel d frames -> nothing_pruned O X cfg wm fuel d frames.
Proof.
  intros fuel frames. induction frames as [|logp frames IH]; intros d fs R Hc Sf; cbn [nothing_pruned]; auto.
  destruct Sf as [S1 S2]. cbn [rev] in Hc. rewrite <- app_assoc in Hc. cbn [app] in Hc.
  assert (K : forall d1, process O X cfg collector fuel d logp = Ok (d1, true) -> ready (by_path (logp :: fs)) d1).
  { intros d1 E. exact (proj1 (process_ready O X cfg wm good Hlm _ _ _ _ _ _ R (by_path_emit _ _ _ _ fs logp) (by_path_eps _ _ _ _ _) S1 E)). }
  split.
  - intros cutoff ab bt d1 cut d' Eg E1 E.
    refine (close_frame fs fuel d logp d' R (K d' E) _ _ E cutoff ab bt d1 cut d' Eg E1 E).
    + apply (Hc (rev frames ++ [logp])). now rewrite <- app_assoc.
    + now apply (Hc (rev frames)).
  - intros d1 E. apply (IH d1 (logp :: fs)); auto.
Qed.

Lemma close_unpruned : forall fuel cache frames, good cache -> close_costs lib cfg wm frames ->
  run_safe O X cfg fuel cache frames -> run_unpruned O X cfg wm fuel cache frames.
Proof.
  intros fuel cache frames Gc Hc Sf d0 d1 E0 E1.
  destruct (new_initialize_beam O X cfg wm good Hlm (proj1 (ieee_strict lib)) _ _ _ _ Gc E0 E1) as (R1 & _).
  apply (close_run fuel frames d1 []); [exact R1|rewrite app_nil_r; exact Hc|exact (Sf _ _ E0 E1)].
Qed.

Lemma close_finite : forall frames, close_costs lib cfg wm frames ->
  all_costs O X cfg wm frames (fun c => f_finite O c = true).
Proof.
  intros frames Hc later fs s c ws E P. destruct (Hc later fs E) as (a & states & Ha & _ & Hp & _).
  exact (proj1 (within_key S0 top0 HS Htop a c Ha (proj2 (Hp _ _ _ P)))).
Qed.

Lemma close_best : forall fuel cache frames d, good cache -> close_costs lib cfg wm frames ->
  run_safe O X cfg fuel cache frames -> decodes O X cfg collector fuel cache frames d ->
  (forall t, In t (d_toks d) ->
     (exists ws, path (rev frames) (k_state t) (k_cost t) ws) /\
     forall c ws, path (rev frames) (k_state t) c ws -> f_lt O c (k_cost t) = false) /\
  (forall s c ws, path (rev frames) s c ws -> exists t, In t (d_toks d) /\ k_state t = s).
Proof.
  intros fuel cache frames d Gc Hc Sf Dc.
  exact (decodes_best O X cfg wm good Hlm (proj1 (ieee_strict lib)) _ (ieee_ordered lib) fuel cache frames d Gc (close_finite frames Hc) Sf
    (close_unpruned fuel cache frames Gc Hc Sf) Dc).
Qed.

(** * The best path *)
Lemma ending_kept : forall eos s c0 c x, is_finite (fl_val c0) = true -> is_finite (fl_val c) = true -> f_lt O c c0 = false ->
  ending X g wm eos s c x ->
  exists x0, ending X g wm eos s c0 x0 /\
    forall total, x_is_inf X x0 = true \/ x_lt X x0 total = false -> x_is_inf X x = true \/ x_lt X x total = false.
Proof.
  intros eos s c0 c x F0 F L E. pose proof (wide_no_less S0 top0 HS Htop lib c0 c F0 F L) as N. destruct eos; cbn [ending] in *.
  - destruct E as (w & Hf & ->). cbv zeta. eexists. split; [exists w; split; [exact Hf|reflexivity]|]. cbv zeta.
    pose proof (add_no_less S0 top0 HS Htop _ _ w 128 ltac:(lia) ltac:(lia) N) as N1.
    destruct wm as [m|]; intros total; [|exact (kept S0 top0 HS Htop _ _ _ total N1)].
    exact (kept S0 top0 HS Htop _ _ _ total (add_no_less S0 top0 HS Htop _ _ (wm_end m (snd s)) 129 ltac:(lia) ltac:(lia) N1)).
  - subst x. exists (x_wide X c0). split; [reflexivity|]. intros total. exact (kept S0 top0 HS Htop _ _ _ total N).
Qed.

Lemma close_hypothesis : forall fuel cache frames d, good cache -> close_costs lib cfg wm frames ->
  run_safe O X cfg fuel cache frames -> decodes O X cfg collector fuel cache frames d ->
  forall (eos : bool) ws weight, best_path O X cfg (if eos then end_of_stream d else d) = Ok (ws, weight) ->
  (ws = [] /\ weight = f_zero O /\
   forall s c ws' x, path (rev frames) s c ws' -> ending X g wm eos s c x -> x_is_inf X x = true \/ x_lt X x (x_inf X) = false) \/
  (exists s c total, path (rev frames) s c (rev ws) /\ ending X g wm eos s c total /\ x_is_inf X total = false /\
     forall s' c' ws' x, path (rev frames) s' c' ws' -> ending X g wm eos s' c' x -> x_is_inf X x = true \/ x_lt X x total = false).
Proof.
  intros fuel cache frames d Gc Hc Sf Dc eos ws weight E.
  destruct (close_best fuel cache frames d Gc Hc Sf Dc) as (B1 & B2). pose proof (close_finite frames Hc) as Fin.
  assert (K : forall total, (forall t x, In t (d_toks d) -> ending X g wm eos (k_state t) (k_cost t) x -> x_is_inf X x = true \/ x_lt X x total = false) ->
    forall s c ws' x, path (rev frames) s c ws' -> ending X g wm eos s c x -> x_is_inf X x = true \/ x_lt X x total = false).
  { intros total H s c ws' x P En. destruct (B2 s c ws' P) as (t & J & <-). destruct (B1 t J) as ((ws0 & P0) & Lt).
    destruct (ending_kept eos (k_state t) (k_cost t) c x (Fin [] _ _ _ _ eq_refl P0) (Fin [] _ _ _ _ eq_refl P) (Lt c ws' P) En) as (x0 & E0 & Kp).
    apply Kp. exact (H t x0 J E0). }
  destruct (hypothesis_path O X cfg wm good Hlm (proj2 (ieee_strict lib)) fuel cache frames d Gc Sf Dc eos ws weight E)
    as [(-> & -> & H)|(s & c & total & w & _ & P & En & _ & _ & Ni & _ & H)].
  - left. split; [reflexivity|]. split; [reflexivity|]. exact (K _ H).
  - right. exists s, c, total. split; [exact P|]. split; [exact En|]. split; [exact Ni|]. exact (K _ H).
Qed.
End Unpruned.
