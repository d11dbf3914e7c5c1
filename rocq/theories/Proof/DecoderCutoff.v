(** Proofs about the decoder: the cutoffs. *)
From Coq Require Import ZArith List Bool Lia Znumtheory.
From Verif.Base Require Import Prelude ZMap Lemmas.
From Verif.Spec Require Import MapSpec PoolSpec GCSpec DecoderSpec.
From Verif.Model Require Import Arith Vector HashTable Pool OLabel Fst Decoder.
From Verif.Proof Require Import Loop HashTable HashTableTotal Pool GC OLabel DecoderBase Decoder DecoderClosed DecoderGc.
Import ListNotations.
Open Scope Z_scope.

(** * The random numbers *)
Notation rnd k x := (Nat.iter k next_random x).

Lemma low16 : forall x, next_random x mod 65536 = (x mod 65536 * 58989 + 11) mod 65536.
Proof.
  intros x. unfold next_random.
  rewrite <- (Zmod_div_mod 65536 18446744073709551616); [|lia|lia|exists 281474976710656; reflexivity].
  change 25214903917 with (58989 + 384748 * 65536).
  replace (x * (58989 + 384748 * 65536) + 11) with (x * 58989 + 11 + (x * 384748) * 65536) by ring.
  rewrite Z.mod_add by lia. rewrite (Z.add_mod (x * 58989)), (Z.mul_mod x) by lia.
  rewrite (Z.add_mod (x mod 65536 * 58989)), (Z.mul_mod (x mod 65536)), Z.mod_mod by lia. reflexivity.
Qed.

(** [p] steps as one affine map modulo 65536. *)
Fixpoint jump (p : positive) : Z * Z :=
  let twice q := let '(a, c) := jump q in ((a * a) mod 65536, (a * c + c) mod 65536) in
  match p with
  | xH => (58989, 11)
  | xO q => twice q
  | xI q => let '(a, c) := twice q in ((a * 58989) mod 65536, (c * 58989 + 11) mod 65536)
  end.

Lemma iter_add : forall (A : Type) (f : A -> A) m n x, Nat.iter (m + n) f x = Nat.iter m f (Nat.iter n f x).
Proof.
  intros A f m n x. induction m as [|m IH]; [reflexivity|].
  change (f (Nat.iter (m + n) f x) = f (Nat.iter m f (Nat.iter n f x))). now rewrite IH.
Qed.

Lemma jump_twice : forall (f : Z -> Z) n a c, 
  (forall x, (Nat.iter n f x) mod 65536 = (a * (x mod 65536) + c) mod 65536) ->
  forall x, (Nat.iter (n + n) f x) mod 65536 = ((a * a) mod 65536 * (x mod 65536) + (a * c + c) mod 65536) mod 65536.
Proof.
  intros f n a c H x. 
  rewrite iter_add, H, H. generalize (x mod 65536) as y. intros y.
  rewrite Z.add_mod_idemp_r by lia.
  rewrite <- (Z.add_mod_idemp_l ((a * a) mod 65536 * y)), Z.mul_mod_idemp_l, Z.add_mod_idemp_l by lia.
  rewrite <- (Z.add_mod_idemp_l (a * _)), Z.mul_mod_idemp_r, Z.add_mod_idemp_l by lia. f_equal. ring.
Qed.

Lemma jump_ok : forall p x,
  (rnd (Pos.to_nat p) x) mod 65536 = (Datatypes.fst (jump p) * (x mod 65536) + snd (jump p)) mod 65536.
Proof.
  induction p as [p IH|p IH|]; intros x.
  - rewrite Pos2Nat.inj_xI. replace (S (2 * Pos.to_nat p)) with (S (Pos.to_nat p + Pos.to_nat p)) by lia.
    change (rnd (S (Pos.to_nat p + Pos.to_nat p)) x) with (next_random (rnd (Pos.to_nat p + Pos.to_nat p) x)).
    cbn [jump]. destruct (jump p) as [a c]. cbn [Datatypes.fst snd] in *.
    rewrite low16, (jump_twice _ _ a c IH). generalize (x mod 65536) as y. intros y.
    generalize ((a * a) mod 65536) as A, ((a * c + c) mod 65536) as E. intros A E.
    rewrite <- (Z.add_mod_idemp_l (_ * 58989)), Z.mul_mod_idemp_l, Z.add_mod_idemp_l by lia.
    rewrite Z.add_mod_idemp_r by lia.
    rewrite <- (Z.add_mod_idemp_l ((A * 58989) mod 65536 * y)), Z.mul_mod_idemp_l, Z.add_mod_idemp_l by lia.
    f_equal. ring.
  - rewrite Pos2Nat.inj_xO. replace (2 * Pos.to_nat p)%nat with (Pos.to_nat p + Pos.to_nat p)%nat by lia.
    cbn [jump]. destruct (jump p) as [a c]. cbn [Datatypes.fst snd] in *. now apply jump_twice.
  - change (rnd (Pos.to_nat 1) x) with (next_random x). rewrite low16. cbn [jump Datatypes.fst snd]. f_equal. ring.
Qed.

Lemma draw_89 : (rnd (Pos.to_nat 133) kCutoffRandSeed) mod 65536 = 89.
Proof. rewrite jump_ok. reflexivity. Qed.

Lemma draw_0 : (rnd (Pos.to_nat 53014) kCutoffRandSeed) mod 65536 = 0.
Proof. rewrite jump_ok. reflexivity. Qed.

Section Cutoff.
Context {F D C : Type} (O : fops F) (X : xops F D) (cfg : config F C).
Notation tok := (token F).
Notation dec := (decoder F C).
Notation g := (c_graph cfg).

Lemma iter_shift : forall (A : Type) (f : A -> A) n x, Nat.iter (S n) f x = Nat.iter n f (f x).
Proof.
  intros A f n x. induction n as [|n IH]; [reflexivity|].
  change (f (Nat.iter (S n) f x) = f (Nat.iter n f (f x))). now rewrite IH.
Qed.

(** The costs sampled. *)
Lemma cutoff_costs : forall n (prev : list tok) x costs b t x' costs' b' t',
  fold_left (cutoff_step O X n) prev (x, costs, b, t) = (x', costs', b', t') ->
  (forall c, In c costs' -> In c costs \/ exists k, In k prev /\ k_cost k = c) /\
  (lenZ costs <= lenZ costs') /\
  (forall k, (k < length prev)%nat -> sampled O n (rnd (S k) x) = true -> lenZ costs < lenZ costs').
Proof.
  intros n prev. induction prev as [|p r IH]; intros x costs b t x' costs' b' t' E.
  - cbn in E. injection E as <- <- <- <-. split; [auto|]. split; [lia|]. intros k Hk. cbn in Hk. lia.
  - cbn [fold_left] in E. unfold cutoff_step at 2 in E. cbv zeta in E.
    set (costs1 := if sampled O n (next_random x) then costs ++ [k_cost p] else costs) in *.
    assert (L1 : lenZ costs <= lenZ costs1 /\ (sampled O n (next_random x) = true -> lenZ costs < lenZ costs1)).
    { unfold costs1. destruct (sampled _ _ _); [rewrite lenZ_app; unfold lenZ at 3; cbn; split; intros; lia|split; [lia|discriminate]]. }
    assert (I1 : forall c, In c costs1 -> In c costs \/ c = k_cost p).
    { unfold costs1. intros c J. destruct (sampled _ _ _); auto. apply in_app_or in J. destruct J as [J|[<-|[]]]; auto. }
    assert (H : exists b1 t1, fold_left (cutoff_step O X n) r (next_random x, costs1, b1, t1) = (x', costs', b', t')).
    { destruct (x_lt X _ b); eauto. }
    destruct H as (b1 & t1 & E1). destruct (IH _ _ _ _ _ _ _ _ E1) as (J1 & J2 & J3).
    split; [|split].
    + intros c J. destruct (J1 c J) as [J'|(k & Jk & Ek)]; [|right; exists k; split; [now right|auto]].
      destruct (I1 c J') as [ | -> ]; auto. right. exists p. split; [now left|auto].
    + lia.
    + intros k Hk S. destruct k as [|k].
      * cbn in S. destruct L1 as [_ L1]. specialize (L1 S). lia.
      * cbn [length] in Hk. rewrite iter_shift in S. specialize (J3 k ltac:(lia) S). lia.
Qed.

(** The best token. *)
Lemma cutoff_best : strict (x_lt X) -> forall n (prev : list tok) x costs b t x' costs' b' t',
  fold_left (cutoff_step O X n) prev (x, costs, b, t) = (x', costs', b', t') ->
  ((b' = b /\ t' = t) \/ (In t' prev /\ b' = x_wide X (k_cost t') /\ x_lt X b' b = true)) /\
  (forall k, In k prev -> x_lt X (x_wide X (k_cost k)) b' = false).
Proof.
  intros [Irr Tr] n prev. induction prev as [|p r IH]; intros x costs b t x' costs' b' t' E.
  - cbn in E. injection E as <- <- <- <-. split; [auto|intros k []].
  - cbn [fold_left] in E. unfold cutoff_step at 2 in E. cbv zeta in E.
    destruct (x_lt X (x_wide X (k_cost p)) b) eqn:L; destruct (IH _ _ _ _ _ _ _ _ E) as (J1 & J2).
    + split.
      * right. destruct J1 as [[-> ->]|(J & Eb & Lb)]; [split; [now left|auto]|].
        split; [now right|]. split; [auto|]. eapply Tr; eauto.
      * intros k [<-|Jk]; auto. destruct J1 as [[-> ->]|(J & Eb & Lb)]; auto.
        destruct (x_lt X (x_wide X (k_cost p)) b') eqn:Lp; auto. pose proof (Tr _ _ _ Lp Lb) as Q0. rewrite Irr in Q0. discriminate.
    + split.
      * destruct J1 as [J1|(J & Eb & Lb)]; auto. right. split; [now right|auto].
      * intros k [<-|Jk]; auto. destruct J1 as [[-> ->]|(J & Eb & Lb)]; auto.
        destruct (x_lt X (x_wide X (k_cost p)) b') eqn:Lp; auto. rewrite (Tr _ _ _ Lp Lb) in L. discriminate.
Qed.

Lemma sample_exists : divides_well O -> forall n, 30000 < n <= 18446744073709551615 ->
  exists k, Z.of_nat k < n /\ sampled O n (rnd (S k) kCutoffRandSeed) = true.
Proof.
  intros Hd n Hn. destruct (Z.le_gt_cases n 65536) as [Le|Gt].
  - exists (pred (Pos.to_nat 133)). pose proof (Pos2Nat.is_pos 133).
    rewrite Nat.succ_pred by lia. split; [rewrite Nat2Z.inj_pred, positive_nat_Z by lia; lia|].
    unfold sampled. rewrite draw_89. unfold kCutoffSamples. apply Hd; lia.
  - exists (pred (Pos.to_nat 53014)). pose proof (Pos2Nat.is_pos 53014).
    rewrite Nat.succ_pred by lia. split; [rewrite Nat2Z.inj_pred, positive_nat_Z by lia; lia|].
    unfold sampled. rewrite draw_0. unfold kCutoffSamples. apply Hd; lia.
Qed.

Lemma fold_place_length : forall l, lenZ (fold_right (place O) [] l) = lenZ l.
Proof.
  assert (H : forall x l, length (place O x l) = S (length l)).
  { intros x l. induction l as [|y l IH]; cbn; auto. destruct (f_lt O x y); cbn; auto. }
  intros l. unfold lenZ. f_equal. induction l as [|x l IH]; cbn; auto. rewrite H. auto.
Qed.

Lemma in_place : forall x l y, In y (place O x l) <-> y = x \/ In y l.
Proof.
  intros x l y. induction l as [|z l IH]; cbn.
  - intuition congruence.
  - destruct (f_lt O x z); cbn; rewrite ?IH; intuition congruence.
Qed.

Lemma in_fold_place : forall l y, In y (fold_right (place O) [] l) <-> In y l.
Proof. intros l y. induction l as [|x l IH]; cbn; [reflexivity|]. rewrite in_place, IH. intuition congruence. Qed.

(** The sampled costs are never empty, and the index is always inside. *)
Lemma sample_index : divides_well O -> forall (prev : list tok) t x costs b t',
  kBeamSize < lenZ prev -> lenZ prev <= 18446744073709551615 ->
  fold_left (cutoff_step O X (lenZ prev)) prev (kCutoffRandSeed, [], x_inf X, t) = (x, costs, b, t') ->
  costs <> [] /\ 0 <= lenZ costs * kBeamSize / lenZ prev < lenZ costs.
Proof.
  intros Hd prev t x costs b t' H1 H2 E. unfold kBeamSize in *.
  destruct (sample_exists Hd (lenZ prev) ltac:(lia)) as (k & Hk & Sk).
  destruct (cutoff_costs _ _ _ _ _ _ _ _ _ _ E) as (_ & _ & L).
  specialize (L k ltac:(unfold lenZ in *; lia) Sk). unfold lenZ at 1 in L. cbn [length] in L.
  split; [intros ->; unfold lenZ in L; cbn in L; lia|].
  assert (0 < lenZ prev) by lia.
  split; [apply Z.div_pos; lia|]. apply Z.div_lt_upper_bound; nia.
Qed.

Lemma get_cutoff_total : divides_well O -> forall prev : list tok, prev <> [] -> lenZ prev <= 18446744073709551615 ->
  exists r, get_cutoff O X cfg prev = Ok r.
Proof.
  intros Hd prev NE Hn. unfold get_cutoff. destruct prev as [|t r]; [congruence|].
  change (getZ (t :: r) 0) with (Ok t). cbn [bind]. set (prev := t :: r) in *.
  destruct (fold_left (cutoff_step O X (lenZ prev)) prev (kCutoffRandSeed, [], x_inf X, t)) as [[[x costs] b] bt] eqn:E.
  destruct (negb (x_finite X b)); [eauto|]. cbv zeta.
  destruct (Z.ltb_spec kBeamSize (lenZ prev)) as [Lt|Ge]; [|cbn [bind]; destruct (x_lt X _ _); eauto].
  destruct (sample_index Hd _ _ _ _ _ _ Lt Hn E) as [_ Hi].
  unfold nth_element. 
  destruct (getZ_total _ (fold_right (place O) [] costs) (lenZ costs * kBeamSize / lenZ prev)) as [c Ec];
    [now rewrite fold_place_length|].
  rewrite Ec. cbn [bind]. destruct (x_lt X _ _); eauto.
Qed.

(** * The weight cutoff *)
Hypothesis R : rounding O X (c_beam cfg).

Lemma get_cutoff_spec : forall (prev : list tok) cutoff ab bt t, get_cutoff O X cfg prev = Ok (cutoff, ab, bt) ->
  In t prev -> f_finite O (k_cost t) = true ->
  (forall t', In t' prev -> f_lt O (k_cost t') (k_cost t) = false) ->
  In bt prev /\ f_finite O (k_cost bt) = true /\ f_finite O (x_narrow X cutoff) = true /\
  f_lt O (x_narrow X cutoff) (k_cost t) = false /\ f_lt O (x_narrow X cutoff) (k_cost bt) = false /\
  slack O X ab.
Proof.
  intros prev cutoff ab bt t E Jt Ft Lt. unfold get_cutoff in E. inv_bind E. apply getZ_in in Hb.
  destruct (fold_left _ prev _) as [[[x costs] b] t'] eqn:Ef.
  destruct (cutoff_best (r_xlt _ _ _ R) _ _ _ _ _ _ _ _ _ _ Ef) as [B1 B2].
  assert (Tinf : x_lt X (x_wide X (k_cost t)) (x_inf X) = true).
  { apply (r_below_inf _ _ _ R). rewrite (r_wide_finite _ _ _ R). exact Ft. }
  destruct B1 as [[-> ->]|(Jb & Eb & Lb)].
  { rewrite (B2 t Jt) in Tinf. discriminate. }
  subst b.
  assert (Eqb : f_lt O (k_cost t) (k_cost t') = false).
  { rewrite <- (r_wide_lt _ _ _ R). auto. }
  assert (Fb : f_finite O (k_cost t') = true).
  { rewrite <- (r_wide_finite _ _ _ R). apply (r_equal _ _ _ R (x_wide X (k_cost t))); auto.
    - rewrite (r_wide_finite _ _ _ R). exact Ft.
    - rewrite (r_wide_lt _ _ _ R). auto. }
  rewrite (r_wide_finite _ _ _ R), Fb in E. cbn [negb] in E. cbv zeta in E.
  destruct (proj1 (r_beam _ _ _ R (k_cost t')) Fb) as (S1 & S2 & S3 & S4).
  assert (Tot : forall c, f_finite O c = true -> f_lt O c (k_cost t') = false -> f_lt O c (k_cost t) = false).
  { intros c Fc Lc. apply (r_total _ _ _ R (k_cost t) (k_cost t') c); auto. }
  inv_bind E.
  destruct (x_lt X a0 _) eqn:La; injection E as <- <- <-.
  - destruct (kBeamSize <? lenZ prev).
    2:{ injection Hb0 as <-. rewrite (r_nan _ _ _ R) in La. discriminate. }
    inv_bind Hb0. injection Hb0 as <-. unfold nth_element in Hb1. apply getZ_in in Hb1. apply (proj1 (in_fold_place _ _)) in Hb1.
    destruct (cutoff_costs _ _ _ _ _ _ _ _ _ _ Ef) as (Hc & _).
    destruct (Hc _ Hb1) as [[]|(k & Jk & Ek)].
    assert (Lk : f_lt O a1 (k_cost t') = false).
    { rewrite <- Ek, <- (r_wide_lt _ _ _ R). auto. }
    assert (Fk : f_finite O a1 = true).
    { rewrite <- (r_wide_finite _ _ _ R). apply (r_between _ _ _ R (x_wide X (k_cost t')) _ _) with (2 := S1); auto.
      - rewrite (r_wide_finite _ _ _ R). exact Fb.
      - rewrite (r_wide_lt _ _ _ R). exact Lk. }
    rewrite (r_narrow_wide _ _ _ R) by exact Fk.
    split; auto. split; auto. split; auto. split; [auto|]. split; auto.
    apply (r_adaptive _ _ _ R); auto.
  - split; auto. split; auto. split; auto. split; auto. split; auto. apply (r_beam _ _ _ R).
Qed.

Context (wm : option (word_model F)) (good : C -> Prop).
Hypothesis Hlm : lm_implements (c_lm cfg) wm good.
Notation dinv := (dinv good).
Notation emit_ok := (emit_ok O X cfg wm).
Notation eps_ok := (eps_ok O X cfg wm).
Notation acoustic := (acoustic O X (c_pdf cfg) (c_scale cfg)).

(** The cutoff for the next frame comes from an arc. *)
Definition next_form (logp : list F) (wc ab : F) (prev : list tok) (next : D) : Prop :=
  next = x_inf X \/
  exists from a ac, In from prev /\ f_lt O wc (k_cost from) = false /\ arc_from g (Datatypes.fst (k_state from)) a /\
    input_label a <> 0 /\ acoustic logp a ac /\
    next = x_add X (x_wide X (f_add O (f_add O (k_cost from) (weight a)) ac)) (x_wide X ab) /\
    exists y, x_lt X next y = true.

Lemma bound_form : forall logp wc ab prev bt arcs next, In bt prev -> f_lt O wc (k_cost bt) = false ->
  graph_arcs cfg (Datatypes.fst (k_state bt)) = Ok arcs ->
  for_each arcs (bound_step O X cfg logp bt ab) (x_inf X) = Ok next -> next_form logp wc ab prev next.
Proof.
  intros logp wc ab prev bt arcs next J L Ea E.
  apply (for_each_ok _ _ (next_form logp wc ab prev) _ _ _ _ (or_introl eq_refl)) in E; [exact E|].
  intros n a n' Ja Hn Es. unfold bound_step in Es.
  destruct (Z.eqb_spec (input_label a) 0) as [Z0|NZ]; [injection Es as <-; auto|].
  inv_bind Es. injection Es as <-. destruct (x_lt X _ n) eqn:Lt; auto. right.
  exists bt, a, (x_neg X a0). split; auto. split; auto. split; [eapply graph_arcs_from; eauto|]. split; auto.
  split; [now apply log_likelihood_acoustic|]. split; [reflexivity|eauto].
Qed.

Lemma process_emitting_next : forall Qp Q Q' logp d d' cut, dinv Qp Q d -> d_prev d = [] -> emit_ok logp Q Q' ->
  process_emitting O X cfg d logp = Ok (d', cut) ->
  forall cutoff ab bt, get_cutoff O X cfg (d_toks d) = Ok (cutoff, ab, bt) ->
  f_finite O (x_narrow X cutoff) = true -> In bt (d_toks d) -> f_lt O (x_narrow X cutoff) (k_cost bt) = false ->
  exists next, cut = x_narrow X next /\ next_form logp (x_narrow X cutoff) ab (d_toks d) next /\
    forall from a, In from (d_toks d) -> f_lt O (x_narrow X cutoff) (k_cost from) = false ->
         arc_from g (Datatypes.fst (k_state from)) a -> emitted O X cfg wm logp ab next (d_toks d') from a.
Proof.
  intros Qp Q Q' logp d d' cut I Ep HQ E cutoff ab bt Eg Fw Jb Lb. unfold process_emitting in E. fold (swapped d) in E.
  pose proof (swapped_inv good Qp Q Q' d I Ep) as Is. 
  replace (d_prev (swapped d)) with (d_toks d) in E by reflexivity. rewrite Eg in E. cbn [bind] in E. cbv zeta in E.
  rewrite Fw in E. cbn [negb] in E. inv_bind E. inv_bind E.
  destruct (bind_ok _ _ _ _ _ E) as [[d1 n1] [El E2]]. clear E. injection E2 as <- <-. cbn [d_toks].
  pose proof (bound_form logp _ _ _ _ _ _ Jb Lb Hb Hb0) as F0.
  destruct (emit_all O X cfg wm good Hlm (r_flt _ _ _ R) Q Q' logp _ _ _ _ _ _ (r_xlt _ _ _ R) Is HQ El) as (_ & _ & _ & _ & Em).
  destruct (emit_all_ind O X cfg wm good Hlm Q Q' logp (x_narrow X cutoff) ab
              (fun st => next_form logp (x_narrow X cutoff) ab (d_toks d) (snd st)) (swapped d) a0 d1 n1 Is HQ F0) as (_ & _ & Fn).
  - intros d2 n2 d3 n3 from a' I2 K2 J Lw Af Fn E3. cbn [snd] in *. unfold emit in E3.
    destruct (Z.eqb_spec (input_label a') 0) as [Z0|NZ]; [injection E3 as <- <-; auto|].
    inv_bind E3. cbv zeta in E3. destruct (x_lt X n2 _); [injection E3 as <- <-; auto|].
    destruct (bind_ok _ _ _ _ _ E3) as [[[u v] w] [_ E4]]. inv_bind E4.
    destruct (bind_ok _ _ _ _ _ E4) as [[u' v'] [_ E5]]. injection E5 as <- <-.
    destruct (x_lt X _ n2) eqn:Lt; auto. right.
    exists from, a', (x_neg X a1). split; [exact J|]. split; auto. split; auto. split; auto.
    split; [now apply log_likelihood_acoustic|]. split; [reflexivity|eauto].
  - exact El.
  - cbn [snd] in Fn. exists n1. auto.
Qed.

(** The frame succeeds. *)
Lemma process_succeeds : forall Qp Q Q' fuel logp d d' b t a ac, dinv Qp Q d -> d_prev d = [] ->
  emit_ok logp Q Q' -> eps_ok Q' ->
  process O X cfg collector fuel d logp = Ok (d', b) ->
  In t (d_toks d) -> f_finite O (k_cost t) = true ->
  (forall t', In t' (d_toks d) -> f_lt O (k_cost t') (k_cost t) = false) ->
  arc_from g (Datatypes.fst (k_state t)) a -> input_label a <> 0 -> acoustic logp a ac ->
  f_finite O (f_add O (f_add O (k_cost t) (weight a)) ac) = true ->
  (forall t' a' ac', In t' (d_toks d) -> arc_from g (Datatypes.fst (k_state t')) a' -> input_label a' <> 0 ->
     acoustic logp a' ac' -> let total := f_add O (f_add O (k_cost t') (weight a')) ac' in
     f_finite O total = false -> f_lt O total (f_zero O) = false) ->
  b = true /\ d_toks d' <> [].
Proof.
  intros Qp Q Q' fuel logp d d' b t a ac I Ep HQ He E Jt Ft Lt Af NZ Ac Fa Nlow.
  unfold process in E. destruct (bind_ok _ _ _ _ _ E) as [[d1 cut] [E1 E2]]. clear E.
  assert (Eg : exists cutoff ab bt, get_cutoff O X cfg (d_toks d) = Ok (cutoff, ab, bt)).
  { pose proof E1 as E1'. unfold process_emitting in E1'. destruct (bind_ok _ _ _ _ _ E1') as [[[c x] y] [Eg _]]. eauto. }
  destruct Eg as (cutoff & ab & bt & Eg).
  destruct (get_cutoff_spec _ _ _ _ t Eg Jt Ft Lt) as (Jb & Fb & Fw & Lwt & Lwb & Sl).
  destruct (process_emitting_next _ _ _ _ _ _ _ I Ep HQ E1 _ _ _ Eg Fw Jb Lwb) as (next & -> & Fn & Em).
  pose proof (r_xlt _ _ _ R) as [Irr Tr].
  assert (NI : forall x, x_finite X x = true -> x_lt X (x_inf X) x = false).
  { intros x Fx. destruct (x_lt X (x_inf X) x) eqn:L; auto. pose proof (Tr _ _ _ L (r_below_inf _ _ _ R _ Fx)) as Q0.
    rewrite Irr in Q0. discriminate. }
  destruct (lm_after O wm (snd (k_state t)) (output_label a)) as [l' lw] eqn:El.
  destruct (Em t a Jt Lwt Af l' lw ac NZ Ac El) as [H1 H2].
  set (total := x_wide X (f_add O (f_add O (k_cost t) (weight a)) ac)) in *.
  assert (Ftot : x_finite X total = true) by (unfold total; rewrite (r_wide_finite _ _ _ R); exact Fa).
  destruct (proj1 (Sl _) Fa) as (S1 & S2 & S3 & S4). fold total in S1, S2, S3.
  (* the cutoff is not infinite *)
  destruct Fn as [->|(from & a' & ac' & Jf & Lf & Af' & NZ' & Ac' & En & (y & Ly))].
  { exfalso. rewrite (NI _ Ftot) in H2. destruct H2 as [H2|H2]; [discriminate|].
    rewrite (r_below_inf _ _ _ R _ S1) in H2. discriminate. }
  (* it comes from a finite cost *)
  assert (Ff : f_finite O (f_add O (f_add O (k_cost from) (weight a')) ac') = true).
  { destruct (f_finite O (f_add O (f_add O (k_cost from) (weight a')) ac')) eqn:Ff; auto. exfalso.
    pose proof (Nlow from a' ac' Jf Af' NZ' Ac' Ff) as N. 
    pose proof (proj2 (Sl _) Ff N y) as Q0. rewrite En in Ly. rewrite Q0 in Ly. discriminate. }
  destruct (proj1 (Sl _) Ff) as (U1 & U2 & U3 & U4). rewrite <- En in U1, U2, U3.
  rewrite (r_wide_finite _ _ _ R), U2 in E2. cbn [negb] in E2.
  (* something was inserted *)
  assert (NT : d_toks d1 <> []).
  { destruct (lm_after O wm (snd (k_state from)) (output_label a')) as [l2 lw2] eqn:El2.
    destruct (Em from a' Jf Lf Af' l2 lw2 ac' NZ' Ac' El2) as [H3 _]. destruct (H3 U3) as (c & J & _).
    intros Q0. rewrite Q0 in J. destruct J. }
  destruct (bind_ok _ _ _ _ _ E2) as [d2 [E3 E4]]. clear E2.
  destruct (process_emitting_inv O X cfg wm good Hlm _ _ _ _ _ _ _ I Ep HQ E1) as (I1 & _).
  destruct (process_nonemitting_closed O X cfg wm good Hlm (r_flt _ _ _ R) _ _ _ _ _ _ I1 He E3) as [_ M].
  assert (NT2 : d_toks d2 <> []).
  { destruct (d_toks d1) as [|k r] eqn:E0; [congruence|].
    destruct (M (k_state k) (k_cost k)) as (c & J & _).
    - exists (k_cost k). split; [now left|]. apply (r_flt _ _ _ R).
    - intros Q0. rewrite Q0 in J. destruct J. }
  destruct (Z.eqb_spec (lenZ (d_toks d2)) 0) as [Z0|_].
  { exfalso. apply NT2. destruct (d_toks d2); auto. discriminate Z0. }
  inv_bind E4. injection E4 as <- <-. split; auto. cbn.
  destruct (_ =? 0); [inv_bind Hb|]; injection Hb as <-; auto.
Qed.

End Cutoff.
