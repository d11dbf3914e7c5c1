(** Mark and sweep. *)
From Coq Require Import ZArith List Bool Lia Permutation.
From Verif.Base Require Import Prelude ZMap Lemmas.
From Verif.Spec Require Import PoolSpec GCSpec.
From Verif.Model Require Import Pool.
From Verif.Proof Require Import Pool.
Import ListNotations.
Open Scope Z_scope.

Lemma gc_slots_seqZ : forall B p, 0 < B -> shape B p ->
  gc_slots B p = seqZ 0 (Z.to_nat (top B p - 1)).
Proof.
  intros B p HB [S1 S2 S3]. unfold gc_slots.
  replace (Z.to_nat (p_block p + 1)) with (Z.to_nat (p_block p) + 1)%nat by lia.
  rewrite seqZ_app, flat_map_app. cbn [seqZ flat_map]. rewrite app_nil_r.
  replace (flat_map _ (seqZ 0 (Z.to_nat (p_block p)))) with (seqZ 0 (Z.to_nat (p_block p * B))).
  2:{ rewrite <- (Z2Nat.id (p_block p)) at 1 by lia. rewrite <- blocks_seqZ by lia.
      assert (G : forall l, (forall b, In b l -> b < p_block p) ->
        flat_map (fun b => map (fun i => b * B + i) (seqZ 0 (Z.to_nat B))) l =
        flat_map (fun b => map (fun i => b * B + i)
          (seqZ 0 (Z.to_nat (if b =? p_block p then p_pos p - 1 else B)))) l).
      { induction l as [|b l IH]; intros Hl; auto. cbn [flat_map].
        rewrite IH by (intros; apply Hl; right; auto).
        destruct (Z.eqb_spec b (p_block p)); auto.
        specialize (Hl b (or_introl eq_refl)). lia. }
      apply G. intros b Hb. apply in_seqZ in Hb. lia. }
  rewrite Z2Nat.id, Z.add_0_l, Z.eqb_refl, seqZ_map_shift by lia.
  unfold top.
  destruct (Z.eq_dec (p_pos p) 0) as [E|E].
  - rewrite E, (S3 E). reflexivity.
  - replace (p_block p * B + 0) with (0 + Z.of_nat (Z.to_nat (p_block p * B))) by nia.
    rewrite <- seqZ_app. f_equal. nia.
Qed.

Section GCProof.
  Context {D V : Type}.
  Variable view : D -> V.

  Definition freed (h : zmap (node D)) (a : Z) : bool :=
    match zget h a with Some n => is_freed (n_state n) | None => false end.
  Definition marked (h : zmap (node D)) (a : Z) : bool :=
    match zget h a with Some n => is_marked (n_state n) | None => false end.
  Definition dom (h : zmap (node D)) (a : Z) : Prop := zget h a <> None.

  Definition link (h : zmap (node D)) (a b : Z) : Prop :=
    exists n, zget h a = Some n /\ n_prev n = Some b.

  Definition dom_closed (h : zmap (node D)) : Prop := forall a b, link h a b -> dom h b.

  (** Same nodes up to the difference between marked, unmarked and using. *)
  Definition sim1 (n n' : node D) : Prop :=
    n_prev n' = n_prev n /\ n_data n' = n_data n /\ is_freed (n_state n') = is_freed (n_state n).

  Definition hsim (h h' : zmap (node D)) : Prop :=
    forall x, match zget h x, zget h' x with
              | Some n, Some n' => sim1 n n'
              | None, None => True
              | _, _ => False
              end.

  Lemma hsim_refl : forall h, hsim h h.
  Proof. intros h x. destruct (zget h x); auto. repeat split. Qed.

  Lemma hsim_trans : forall h1 h2 h3, hsim h1 h2 -> hsim h2 h3 -> hsim h1 h3.
  Proof.
    intros h1 h2 h3 A B x. specialize (A x). specialize (B x).
    destruct (zget h1 x), (zget h2 x), (zget h3 x); auto; try tauto.
    destruct A as (a1 & a2 & a3), B as (b1 & b2 & b3). repeat split; congruence.
  Qed.

  Lemma hsim_set : forall h a n s, zget h a = Some n ->
    is_freed s = is_freed (n_state n) -> hsim h (zset h a (set_state s n)).
  Proof.
    intros h a n s Hn Hs x. rewrite zget_zset. destruct (Z.eqb_spec a x).
    - subst. rewrite Hn. repeat split; auto.
    - destruct (zget h x); auto. repeat split.
  Qed.

  Lemma hsim_freed : forall h h', hsim h h' -> forall a, freed h' a = freed h a.
  Proof.
    intros h h' H a. specialize (H a). unfold freed.
    destruct (zget h a), (zget h' a); try tauto. apply H.
  Qed.

  Lemma hsim_link : forall h h', hsim h h' -> forall a b, link h a b <-> link h' a b.
  Proof.
    intros h h' H a b. specialize (H a). unfold link. split; intros (n & E & P);
      rewrite E in H; [destruct (zget h' a) as [n'|] eqn:E'|destruct (zget h a) as [n'|] eqn:E'];
      try tauto; destruct H as (P' & _); exists n'; split; congruence.
  Qed.

  Lemma hsim_dom : forall h h', hsim h h' -> forall a, dom h a <-> dom h' a.
  Proof.
    intros h h' H a. specialize (H a). unfold dom.
    destruct (zget h a), (zget h' a); try tauto; split; congruence.
  Qed.

  Lemma hsim_dom_closed : forall h h', hsim h h' -> dom_closed h -> dom_closed h'.
  Proof.
    intros h h' H Hd a b Hl. apply (hsim_dom _ _ H). apply (Hd a b). now apply (hsim_link _ _ H).
  Qed.

  (** Unmarking. *)
  Lemma unmark_spec : forall slots h, (forall a, In a slots -> dom h a) ->
    exists h', unmark_all slots h = Ok h' /\ hsim h h' /\
      (forall a, In a slots -> marked h' a = false) /\
      (forall a, ~ In a slots -> zget h' a = zget h a).
  Proof.
    induction slots as [|a r IH]; intros h Hd; cbn [unmark_all].
    - exists h. split; auto. split; [apply hsim_refl|]. split; [intros ? []|auto].
    - unfold deref. specialize (Hd a (or_introl eq_refl)) as Ha. unfold dom in Ha.
      destruct (zget h a) as [n|] eqn:E; [|congruence]. cbn [bind].
      destruct (is_freed (n_state n)) eqn:F.
      + destruct (IH h) as (h' & E' & S & M & O); [intros; apply Hd; right; auto|].
        exists h'. split; auto. split; auto. split.
        * intros x [->|Hx]; auto. unfold marked.
          pose proof (hsim_freed _ _ S x) as G. unfold freed in G. rewrite E in G.
          destruct (zget h' x) as [m|]; auto. destruct (n_state m); auto; cbn in G; congruence.
        * intros x Hx. apply O. intros Hx'; apply Hx; right; auto.
      + assert (S0 : hsim h (zset h a (set_state Unmarked n))) by (apply hsim_set; auto).
        destruct (IH (zset h a (set_state Unmarked n))) as (h' & E' & S & M & O).
        { intros x Hx. apply (hsim_dom _ _ S0). apply Hd; right; auto. }
        exists h'. split; auto. split; [eapply hsim_trans; eauto|]. split.
        * intros x [->|Hx]; auto. destruct (in_dec Z.eq_dec x r) as [Hx|Hx]; auto.
          unfold marked. rewrite (O x Hx), zget_zset_same. reflexivity.
        * intros x Hx. rewrite O by (intros Hx'; apply Hx; right; auto).
          apply zget_zset_other. intros ->. apply Hx. left; auto.
  Qed.

  (** Marking. *)
  Section Mark.
    Variable h0 : zmap (node D).
    Variable roots : list Z.
    Variable T : Z.   (* the heap's domain is 0 .. T-1 *)
    Hypothesis Hdom : forall a, dom h0 a <-> 0 <= a < T.
    Let R := reach (link h0) roots.
    Hypothesis Hlive : forall a, R a -> dom h0 a /\ freed h0 a = false.

    Definition n_unmarked (h : zmap (node D)) : nat :=
      length (filter (fun a => negb (marked h a)) (seqZ 0 (Z.to_nat T))).

    Lemma n_unmarked_mark : forall h a n, 0 <= a < T -> zget h a = Some n -> marked h a = false ->
      (n_unmarked (zset h a (set_state Marked n)) < n_unmarked h)%nat.
    Proof.
      intros h a n Ha E M. unfold n_unmarked.
      assert (Hin : In a (seqZ 0 (Z.to_nat T))) by (apply in_seqZ; lia).
      set (h' := zset h a (set_state Marked n)).
      assert (Hm : forall x, negb (marked h' x) = true -> negb (marked h x) = true).
      { intros x. unfold h', marked. rewrite zget_zset. destruct (Z.eqb_spec a x); auto.
        cbn. discriminate. }
      assert (Ha' : negb (marked h' a) = false).
      { unfold h', marked. now rewrite zget_zset_same. }
      revert Hin. generalize (seqZ 0 (Z.to_nat T)) as l.
      assert (Hle : forall l, (length (filter (fun a => negb (marked h' a)) l)
                     <= length (filter (fun a => negb (marked h a)) l))%nat).
      { induction l as [|x l IH]; simpl; auto.
        destruct (negb (marked h' x)) eqn:E1.
        - rewrite (Hm _ E1). simpl. lia.
        - destruct (negb (marked h x)); simpl; lia. }
      induction l as [|x l IH]; intros Hin; [destruct Hin|]. simpl.
      destruct (Z.eq_dec x a) as [->|Hne].
      - rewrite Ha', M. simpl. specialize (Hle l). lia.
      - destruct Hin as [->|Hin]; [congruence|]. specialize (IH Hin).
        destruct (negb (marked h' x)) eqn:E1.
        + rewrite (Hm _ E1). simpl. lia.
        + destruct (negb (marked h x)); simpl; lia.
    Qed.

    Lemma mark_spec : forall fuel queue h,
      hsim h0 h ->
      (forall a, In a queue -> R a) ->
      (forall a b, marked h a = true -> R a -> link h0 a b -> In b queue \/ marked h b = true) ->
      (length queue + n_unmarked h <= fuel)%nat ->
      exists h', mark_all fuel queue h = Ok h' /\ hsim h0 h' /\
        (forall a, marked h a = true -> marked h' a = true) /\
        (forall a, marked h' a = true -> marked h a = true \/ R a) /\
        (forall a, In a queue -> marked h' a = true) /\
        (forall a b, marked h' a = true -> R a -> link h0 a b -> marked h' b = true).
    Proof.
      induction fuel as [|fuel IH]; intros queue h S Q C F.
      - destruct queue as [|a r]; [|cbn in F; lia]. cbn [mark_all]. exists h.
        split; auto. split; auto. split; auto. split; auto. split; [intros ? []|].
        intros a b M Ra L. destruct (C a b M Ra L) as [[]|G]; auto.
      - destruct queue as [|a r]; cbn [mark_all].
        + exists h. split; auto. split; auto. split; auto. split; auto. split; [intros ? []|].
          intros a b M Ra L. destruct (C a b M Ra L) as [[]|G]; auto.
        + pose proof (Q a (or_introl eq_refl)) as Ra. destruct (Hlive a Ra) as [Da Fa].
          pose proof Da as Da'. apply (hsim_dom _ _ S) in Da'. unfold dom in Da'.
          unfold deref. destruct (zget h a) as [n|] eqn:E; [|congruence]. cbn [bind].
          destruct (is_marked (n_state n)) eqn:M.
          * assert (Ma : marked h a = true) by (unfold marked; rewrite E; auto).
            destruct (IH r h S) as (h' & E' & S' & M1 & M2 & M3 & M4).
            { intros x Hx; apply Q; right; auto. }
            { intros x y Mx Rx L. destruct (C x y Mx Rx L) as [[->|G]|G]; auto. }
            { cbn [length] in F. lia. }
            exists h'. split; auto. split; auto. split; auto. split; auto. split; auto.
            intros x [->|Hx]; auto.
          * assert (Fn : is_freed (n_state n) = false).
            { pose proof (hsim_freed _ _ S a) as G. unfold freed at 1 in G. rewrite E in G.
              now rewrite G. }
            rewrite Fn. cbn [negb check bind].
            assert (Ma : marked h a = false) by (unfold marked; rewrite E; auto).
            set (h1 := zset h a (set_state Marked n)).
            assert (S1 : hsim h0 h1).
            { eapply hsim_trans; [exact S|]. apply hsim_set; auto. }
            assert (Mh1 : forall x, marked h1 x = if Z.eqb a x then true else marked h x).
            { intros x. unfold h1, marked. rewrite zget_zset.
              destruct (Z.eqb_spec a x); auto. }
            pose proof (n_unmarked_mark h a n (proj1 (Hdom a) Da) E Ma) as Hdec. fold h1 in Hdec.
            assert (Hlk : forall b, link h0 a b <-> n_prev n = Some b).
            { intros b. rewrite (hsim_link _ _ S). unfold link. rewrite E. split.
              - intros (m & E1 & P). congruence.
              - eauto. }
            set (queue' := match n_prev n with Some b => b :: r | None => r end).
            assert (Eq : match n_prev n with
                         | Some b => mark_all fuel (b :: r) h1
                         | None => mark_all fuel r h1 end = mark_all fuel queue' h1).
            { unfold queue'. destruct (n_prev n); auto. }
            rewrite Eq.
            destruct (IH queue' h1 S1) as (h' & E' & S' & M1 & M2 & M3 & M4).
            { intros x Hx. unfold queue' in Hx. destruct (n_prev n) as [b|] eqn:P.
              - destruct Hx as [<-|Hx]; [|apply Q; right; auto].
                eapply reach_step; [exact Ra|]. apply Hlk. auto.
              - apply Q; right; auto. }
            { intros x y Mx Rx L. rewrite Mh1 in Mx |- *. destruct (Z.eqb_spec a x).
              - subst x. apply Hlk in L. left. unfold queue'. rewrite L. left; auto.
              - destruct (C x y Mx Rx L) as [[->|G]|G].
                + right. now rewrite Z.eqb_refl.
                + left. unfold queue'. destruct (n_prev n); auto. right; auto.
                + right. destruct (Z.eqb a y); auto. }
            { unfold queue'. cbn [length] in F. destruct (n_prev n); cbn [length]; lia. }
            exists h'. split; auto. split; auto. split.
            { intros x Mx. apply M1. rewrite Mh1, Mx. destruct (Z.eqb a x); auto. }
            split.
            { intros x Mx. destruct (M2 x Mx) as [G|G]; auto. rewrite Mh1 in G.
              destruct (Z.eqb_spec a x); auto. subst; auto. }
            split; auto.
            intros x [->|Hx].
            { apply M1. rewrite Mh1, Z.eqb_refl. auto. }
            { apply M3. unfold queue'. destruct (n_prev n); auto. right; auto. }
    Qed.
  End Mark.

  (** Sweeping. *)
  Variable collect : zmap (node D) -> Z -> res (zmap (node D)).
  Variable Inv : zmap (node D) -> Prop.
  Hypothesis Inv_sim : forall h h', hsim h h' -> Inv h -> Inv h'.
  Hypothesis collect_ok : forall h a n,
    Inv h -> dom_closed h -> zget h a = Some n -> is_freed (n_state n) = false ->
    exists h' n', collect h a = Ok h' /\ zget h' a = Some n' /\
      (forall x, x <> a ->
         match zget h x, zget h' x with
         | Some m, Some m' => n_state m' = n_state m /\ n_prev m' = n_prev m /\
                              view (n_data m') = view (n_data m)
         | None, None => True
         | _, _ => False
         end) /\
      (n_prev n' = None \/ n_prev n' = n_prev n) /\
      Inv (zset h' a (set_state Freed n')).

  (** What the sweep does to one node. *)
  Definition kept (n n' : node D) : Prop :=
    n_state n' = n_state n /\ n_prev n' = n_prev n /\ view (n_data n') = view (n_data n).

  Definition to_collect (h : zmap (node D)) (a : Z) : bool := negb (freed h a) && negb (marked h a).

  Lemma sweep_spec : forall slots h acc,
    NoDup slots -> (forall a, In a slots -> dom h a) -> Inv h -> dom_closed h ->
    exists h', sweep collect slots h acc = Ok (h', rev acc ++ filter (to_collect h) slots) /\
      Inv h' /\ dom_closed h' /\
      forall x, match zget h x, zget h' x with
                | Some n, Some n' =>
                    if in_dec Z.eq_dec x (filter (to_collect h) slots)
                    then n_state n' = Freed else kept n n'
                | None, None => True
                | _, _ => False
                end.
  Proof.
    induction slots as [|a r IH]; intros h acc Hnd Hd Hi Hc; cbn [sweep].
    - exists h. cbn [filter]. rewrite app_nil_r. split; auto. split; auto. split; auto.
      intros x. destruct (zget h x); auto. simpl. repeat split.
    - inversion Hnd as [|? ? Ha Hnd']; subst.
      pose proof (Hd a (or_introl eq_refl)) as Da. unfold dom in Da.
      unfold deref. destruct (zget h a) as [n|] eqn:E; [|congruence]. cbn [bind].
      assert (Ft : to_collect h a = negb (is_freed (n_state n)) && negb (is_marked (n_state n))).
      { unfold to_collect, freed, marked. now rewrite E. }
      assert (Skip : to_collect h a = false ->
                exists h', sweep collect r h acc = Ok (h', rev acc ++ filter (to_collect h) (a :: r)) /\
                  Inv h' /\ dom_closed h' /\
                  forall x, match zget h x, zget h' x with
                  | Some n, Some n' =>
                      if in_dec Z.eq_dec x (filter (to_collect h) (a :: r))
                      then n_state n' = Freed else kept n n'
                  | None, None => True
                  | _, _ => False
                  end).
      { intros Hf. cbn [filter]. rewrite Hf. apply IH; auto. intros; apply Hd; right; auto. }
      destruct (is_freed (n_state n)) eqn:F; [apply Skip; rewrite Ft; auto|].
      destruct (is_marked (n_state n)) eqn:M; [apply Skip; rewrite Ft; auto|].
      clear Skip. cbn [negb andb] in Ft.
      destruct (collect_ok h a n Hi Hc E F) as (h1 & n1 & E1 & En1 & Ho & Hp & Hi1).
      rewrite E1. cbn [bind]. rewrite En1. cbn [bind].
      set (h2 := zset h1 a (set_state Freed n1)) in *.
      assert (H2 : forall x, x <> a -> zget h2 x = zget h1 x).
      { intros x Hx. unfold h2. apply zget_zset_other. congruence. }
      assert (H2a : zget h2 a = Some (set_state Freed n1)) by (unfold h2; apply zget_zset_same).
      assert (Dom2 : forall x, dom h x -> dom h2 x).
      { intros x. unfold dom. destruct (Z.eq_dec x a) as [->|Hx]; [rewrite H2a; discriminate|].
        rewrite H2 by auto. specialize (Ho x Hx).
        destruct (zget h x), (zget h1 x); try tauto; try congruence. }
      assert (Hc2 : dom_closed h2).
      { intros x y (m & Em & P). apply Dom2.
        destruct (Z.eq_dec x a) as [->|Hx].
        - rewrite H2a in Em. injection Em as <-. cbn in P. destruct Hp as [Hp|Hp]; [congruence|].
          apply (Hc a y). exists n. split; congruence.
        - rewrite H2 in Em by auto. specialize (Ho x Hx). rewrite Em in Ho.
          destruct (zget h x) as [m0|] eqn:E0; [|tauto].
          apply (Hc x y). exists m0. split; auto. destruct Ho as (_ & Ho & _). congruence. }
      destruct (IH h2 (a :: acc) Hnd') as (h' & E' & Hi' & Hc' & Hx'); auto.
      { intros x Hx. apply Dom2. apply Hd. right; auto. }
      assert (Ef : filter (to_collect h2) r = filter (to_collect h) r).
      { assert (G : forall l, ~ In a l -> filter (to_collect h2) l = filter (to_collect h) l).
        { induction l as [|y l IHl]; intros Hy; auto. cbn [filter].
          rewrite IHl by (intros G; apply Hy; right; auto).
          assert (to_collect h2 y = to_collect h y) as ->; auto.
          assert (Hya : y <> a) by (intros ->; apply Hy; left; auto).
          unfold to_collect, freed, marked. rewrite H2 by auto. specialize (Ho y Hya).
          destruct (zget h y), (zget h1 y); try tauto. destruct Ho as (-> & _). auto. }
        apply G; auto. }
      exists h'. split.
      { rewrite E'. cbn [rev filter]. rewrite Ef, Ft, <- app_assoc. reflexivity. }
      split; auto. split; auto.
      intros x. specialize (Hx' x). cbn [filter]. rewrite Ft. rewrite Ef in Hx'.
      destruct (Z.eq_dec x a) as [->|Hx].
      + rewrite E. rewrite H2a in Hx'. destruct (zget h' a) as [m|]; auto.
        destruct (in_dec Z.eq_dec a (filter (to_collect h) r)) as [Hin|Hin].
        * apply filter_In in Hin. tauto.
        * destruct (in_dec Z.eq_dec a (a :: filter (to_collect h) r)) as [Hin'|Hin'];
            [|exfalso; apply Hin'; left; auto].
          destruct Hx' as (-> & _). reflexivity.
      + rewrite H2 in Hx' by auto. specialize (Ho x Hx).
        destruct (zget h x) as [m0|], (zget h1 x) as [m1|]; try tauto.
        destruct (zget h' x) as [m'|]; auto.
        destruct (in_dec Z.eq_dec x (filter (to_collect h) r)) as [Hin|Hin].
        * destruct (in_dec Z.eq_dec x (a :: filter (to_collect h) r)) as [Hin'|Hin']; auto.
          exfalso; apply Hin'; right; auto.
        * destruct (in_dec Z.eq_dec x (a :: filter (to_collect h) r)) as [[->|Hin']|Hin']; try tauto.
          destruct Ho as (o1 & o2 & o3), Hx' as (x1 & x2 & x3). repeat split; congruence.
  Qed.

  Lemma dealloc_all_spec : forall l (g : gcpool D),
    (forall a, In a l -> exists n, zget (g_heap g) a = Some n /\ n_state n = Freed) ->
    exists h', dealloc_all g l = Ok (mk_gcpool
        (mk_pool (p_blocks (g_pool g)) (rev l ++ p_free (g_pool g))
                 (p_block (g_pool g)) (p_pos (g_pool g))) h') /\
      forall x, zget h' x = zget (g_heap g) x.
  Proof.
    induction l as [|a r IH]; intros g Hl; cbn [dealloc_all].
    - exists (g_heap g). split; auto. destruct g as [[]]; auto.
    - unfold gdealloc, deref. destruct (Hl a (or_introl eq_refl)) as (n & E & F).
      rewrite E. cbn [bind].
      assert (G : forall x, zget (zset (g_heap g) a (set_state Freed n)) x = zget (g_heap g) x).
      { intros x. rewrite zget_zset. destruct (Z.eqb_spec a x); auto. subst. rewrite E.
        destruct n; cbn in *. subst; auto. }
      match goal with |- context [dealloc_all ?g1 r] => destruct (IH g1) as (h' & E' & H') end.
      { intros x Hx. cbn [g_heap]. rewrite G. apply Hl. right; auto. }
      exists h'. split.
      + rewrite E'. cbn. rewrite <- app_assoc. reflexivity.
      + intros x. rewrite H'. cbn [g_heap]. apply G.
  Qed.

  Variable B : Z.
  Hypothesis HB : 0 < B.

  (** Invariant of the pool of nodes. *)
  Record ginv (g : gcpool D) : Prop := {
    gi_shape : shape B (g_pool g);
    gi_dom : forall a, dom (g_heap g) a <-> 0 <= a < top B (g_pool g);
    gi_nodup : NoDup (p_free (g_pool g));
    gi_free : forall a, In a (p_free (g_pool g)) <-> freed (g_heap g) a = true;
    gi_closed : dom_closed (g_heap g);
    gi_inv : Inv (g_heap g)
  }.

  Lemma gc_spec : forall g roots,
    ginv g ->
    let h := g_heap g in
    let last := top B (g_pool g) - 1 in
    let R := reach (link h) roots in
    (forall a, R a -> dom h a /\ freed h a = false) ->
    (forall b, marked h last = true -> R last -> ~ link h last b) ->
    exists g', gc B collect g roots = Ok g' /\ ginv g' /\
      top B (g_pool g') = top B (g_pool g) /\
      (forall a, freed (g_heap g') a = true <->
                 freed h a = true \/ (dom h a /\ a <> last /\ ~ R a)) /\
      (forall a n, zget h a = Some n -> freed (g_heap g') a = false ->
         exists n', zget (g_heap g') a = Some n' /\ n_prev n' = n_prev n /\
                    view (n_data n') = view (n_data n)) /\
      (forall a, marked (g_heap g') a = true -> R a \/ (a = last /\ marked h last = true)).
  Proof.
    intros g roots [Gs Gd Gn Gf Gc Gi] h last R Hlive Hsafe.
    fold h in Gd, Gf, Gc, Gi.
    unfold gc. rewrite gc_slots_seqZ by auto. fold last.
    set (slots := seqZ 0 (Z.to_nat last)).
    assert (Hslots : forall a, In a slots <-> (dom h a /\ a <> last)).
    { intros a. unfold slots. rewrite in_seqZ, Gd. unfold last.
      pose proof (top_nonneg B HB (g_pool g) Gs). lia. }
    destruct (unmark_spec slots h) as (h1 & E1 & S1 & U1 & O1).
    { intros a Ha. apply Hslots in Ha. tauto. }
    fold h. rewrite E1. cbn [bind].
    assert (Rl : forall a, reach (link h1) roots a <-> R a).
    { intros a. split; induction 1; try (apply reach_root; assumption).
      - eapply reach_step; [eassumption|]. apply (hsim_link _ _ S1). auto.
      - eapply reach_step; [eassumption|]. apply (hsim_link _ _ S1). auto. }
    assert (M1 : forall a, marked h1 a = true -> a = last /\ marked h last = true).
    { intros a Ha. destruct (in_dec Z.eq_dec a slots) as [Hin|Hin].
      - rewrite (U1 a Hin) in Ha. discriminate.
      - assert (dom h a).
        { apply (hsim_dom _ _ S1). unfold marked, dom in *. destruct (zget h1 a); congruence. }
        assert (a = last).
        { destruct (Z.eq_dec a last); auto. exfalso. apply Hin. apply Hslots. auto. }
        subst a. split; auto. unfold marked in *. rewrite (O1 last Hin) in Ha. auto. }
    destruct (mark_spec h1 roots (top B (g_pool g))) with
      (fuel := mark_fuel B (g_pool g) roots) (queue := rev roots) (h := h1)
      as (h2 & E2 & S2 & MM & MR & MQ & MC).
    { intros a. rewrite <- (hsim_dom _ _ S1). apply Gd. }
    { intros a Ha. apply Rl in Ha. destruct (Hlive a Ha) as [Da Fa].
      split; [now apply (hsim_dom _ _ S1)|]. now rewrite (hsim_freed _ _ S1). }
    { apply hsim_refl. }
    { intros a Ha. apply in_rev in Ha. now apply reach_root. }
    { intros a b Ma Ra L. destruct (M1 a Ma) as [-> Ml]. exfalso.
      apply (Hsafe b Ml); [now apply Rl|]. now apply (hsim_link _ _ S1). }
    { rewrite rev_length. unfold mark_fuel, n_unmarked, top.
      apply Nat.add_le_mono_l. etransitivity; [apply filter_length_le|].
      rewrite seqZ_length. lia. }
    rewrite E2. cbn [bind].
    assert (RM : forall a, R a -> marked h2 a = true).
    { intros a Ha. apply Rl in Ha. induction Ha as [a Ha|a b Ha IHa L].
      - apply MQ. now apply in_rev in Ha.
      - apply (MC a b); auto. }
    assert (S02 : hsim h h2) by (eapply hsim_trans; eauto).
    destruct (sweep_spec slots h2 []) as (h3 & E3 & I3 & C3 & X3).
    { apply NoDup_seqZ. }
    { intros a Ha. apply (hsim_dom _ _ S02). apply Hslots in Ha. tauto. }
    { apply (Inv_sim h); auto. }
    { eapply hsim_dom_closed; eauto. }
    rewrite E3. cbn [rev app bind].
    set (l := filter (to_collect h2) slots) in *.
    assert (Hl : forall a, In a l <-> dom h a /\ a <> last /\ freed h a = false /\ ~ R a).
    { intros a. unfold l. rewrite filter_In, Hslots. unfold to_collect.
      rewrite andb_true_iff, !negb_true_iff, (hsim_freed _ _ S02). split.
      - intros [[Da La] [Fa Ma]]. repeat split; auto. intros Ra. apply RM in Ra. congruence.
      - intros (Da & La & Fa & Ra). repeat split; auto.
        destruct (marked h2 a) eqn:Ma; auto. exfalso.
        destruct (MR a Ma) as [G|G]; [apply M1 in G; tauto|]. apply Rl in G. tauto. }
    destruct (dealloc_all_spec l (mk_gcpool (g_pool g) h3)) as (h4 & E4 & X4).
    { intros a Ha. cbn [g_heap]. specialize (X3 a).
      assert (Da : dom h2 a) by (apply (hsim_dom _ _ S02); apply Hl in Ha; tauto).
      unfold dom in Da. destruct (zget h2 a); [|congruence].
      destruct (zget h3 a) as [n'|]; [|tauto].
      destruct (in_dec Z.eq_dec a l); [|tauto]. eauto. }
    cbn [g_heap g_pool] in X4, E4. rewrite E4.
    set (g' := mk_gcpool _ h4). exists g'. split; auto.
    assert (X : forall x, match zget h2 x, zget h4 x with
                | Some n, Some n' => if in_dec Z.eq_dec x l then n_state n' = Freed else kept n n'
                | None, None => True
                | _, _ => False
                end) by (intros x; rewrite X4; apply X3).
    clear X3.
    assert (D4 : forall a, dom h4 a <-> dom h a).
    { intros a. rewrite (hsim_dom _ _ S02). specialize (X a). unfold dom.
      destruct (zget h2 a), (zget h4 a); try tauto; split; congruence. }
    assert (F4 : forall a, freed h4 a = true <-> freed h a = true \/ In a l).
    { intros a. rewrite <- (hsim_freed _ _ S02 a). specialize (X a). unfold freed.
      destruct (zget h2 a) as [n2|] eqn:E2a, (zget h4 a) as [n4|]; try tauto.
      - destruct (in_dec Z.eq_dec a l) as [Hin|Hin].
        + rewrite X. cbn. tauto.
        + destruct X as (-> & _). tauto.
      - split; [discriminate|]. intros [?|Hin]; [discriminate|]. exfalso.
        apply Hl in Hin. destruct Hin as [Da _]. apply (hsim_dom _ _ S02) in Da.
        unfold dom in Da. congruence. }
    assert (FR : forall a, freed h a = true -> ~ In a l).
    { intros a Fa Hin. apply Hl in Hin. destruct Hin as (_ & _ & Fa' & _). congruence. }
    split; [constructor; unfold g'; cbn [g_pool g_heap p_free]|].
    - destruct Gs; constructor; auto.
    - intros a. rewrite D4. apply Gd.
    - assert (Nl : NoDup (rev l)).
      { apply NoDup_rev. unfold l. apply NoDup_filter. apply NoDup_seqZ. }
      assert (Dis : forall a, In a (rev l) -> ~ In a (p_free (g_pool g))).
      { intros a Ha Hb. apply in_rev in Ha. apply Gf in Hb. apply (FR a Hb Ha). }
      clear -Nl Dis Gn. induction (rev l) as [|x r IH]; simpl; auto.
      inversion Nl; subst. constructor.
      + rewrite in_app_iff. intros [?|?]; auto. apply (Dis x); auto. left; auto.
      + apply IH; auto. intros; apply Dis; right; auto.
    - intros a. rewrite in_app_iff, <- in_rev, F4, Gf. tauto.
    - intros a b (n & En & P). apply D4. specialize (C3 a b).
      assert (link h3 a b) by (exists n; rewrite <- X4; auto).
      specialize (C3 H). apply D4. unfold dom in *. now rewrite X4.
    - apply (Inv_sim h3); auto. intros x. rewrite X4. destruct (zget h3 x); auto. repeat split.
    - split; [reflexivity|]. unfold g'; cbn [g_heap]. split.
      { intros a. rewrite F4, Hl. split.
        - intros [?|(?&?&?&?)]; auto.
        - intros [?|(?&?&?)]; auto. destruct (freed h a) eqn:Fa; auto. }
      split.
      { intros a n En Fa. assert (Hnl : ~ In a l).
        { intros Hin. assert (freed h4 a = true) by (apply F4; auto). congruence. }
        specialize (X a). pose proof (S02 a) as Sa. rewrite En in Sa.
        destruct (zget h2 a) as [n2|]; [|tauto]. destruct (zget h4 a) as [n4|]; [|tauto].
        destruct (in_dec Z.eq_dec a l); [tauto|]. exists n4. split; auto.
        destruct X as (_ & P & Vw), Sa as (P' & Vw' & _). split; congruence. }
      { intros a Ma. specialize (X a). unfold marked in Ma.
        destruct (zget h4 a) as [n4|]; [|discriminate].
        destruct (zget h2 a) as [n2|] eqn:E2a; [|tauto].
        destruct (in_dec Z.eq_dec a l).
        - rewrite X in Ma. discriminate.
        - destruct X as (St & _). rewrite St in Ma.
          assert (M2 : marked h2 a = true) by (unfold marked; rewrite E2a; auto).
          destruct (MR a M2) as [G|G]; [right; apply M1; auto|left; apply Rl; auto]. }
  Qed.
End GCProof.
