(** The pool of output labels under garbage collection. *)
From Coq Require Import ZArith List Bool Lia.
From Verif.Base Require Import Prelude ZMap Lemmas.
From Verif.Spec Require Import PoolSpec GCSpec.
From Verif.Model Require Import Pool OLabel.
From Verif.Proof Require Import Pool GC.
Import ListNotations.
Open Scope Z_scope.

(** [nexts_] leads to live nodes that point back. *)
Definition ninv (h : zmap onode) : Prop :=
  forall x n l y, zget h x = Some n -> is_freed (n_state n) = false ->
    zget (o_nexts (n_data n)) l = Some y ->
    exists m, zget h y = Some m /\ is_freed (n_state m) = false /\
              n_prev m = Some x /\ o_label (n_data m) = l.

Lemma ninv_sim : forall h h', hsim h h' -> ninv h -> ninv h'.
Proof.
  intros h h' S H x n' l y En Fn Ny.
  pose proof (S x) as Sx. rewrite En in Sx. destruct (zget h x) as [n|] eqn:E; [|tauto].
  destruct Sx as (P & Dt & F). rewrite F in Fn. rewrite Dt in Ny.
  destruct (H x n l y E Fn Ny) as (m & Em & Fm & Pm & Lm).
  pose proof (S y) as Sy. rewrite Em in Sy. destruct (zget h' y) as [m'|]; [|tauto].
  destruct Sy as (P' & Dt' & F'). exists m'. repeat split; congruence.
Qed.

Lemma on_collect_ok : forall h a n,
  ninv h -> dom_closed h -> zget h a = Some n -> is_freed (n_state n) = false ->
  exists h' n', on_collect h a = Ok h' /\ zget h' a = Some n' /\
    (forall x, x <> a ->
       match zget h x, zget h' x with
       | Some m, Some m' => n_state m' = n_state m /\ n_prev m' = n_prev m /\
                            o_label (n_data m') = o_label (n_data m)
       | None, None => True
       | _, _ => False
       end) /\
    (n_prev n' = None \/ n_prev n' = n_prev n) /\
    ninv (zset h' a (set_state Freed n')).
Proof.
  intros h a n Hi Hc E F. unfold on_collect, deref. rewrite E. cbn [bind].
  set (cl := mk_node (n_state n) (n_prev n) (mk_olabel (o_label (n_data n)) zempty)).
  set (fin := mk_node (n_state n) None (mk_olabel (-1) zempty)).
  (* the heap after the erase, outside a *)
  assert (G : exists h1,
    match n_prev n with
    | Some b =>
        m <- match zget (zset h a cl) b with Some n0 => Ok n0 | None => Fault Undef end ;;
        (if is_freed (n_state m) then Ok (zset h a cl)
         else Ok (zset (zset h a cl) b
                (mk_node (n_state m) (n_prev m)
                   (mk_olabel (o_label (n_data m)) (zdel (o_nexts (n_data m)) (o_label (n_data n)))))))
    | None => Ok (zset h a cl)
    end = Ok h1 /\
    forall x, x <> a ->
      match zget h x, zget h1 x with
      | Some m, Some m' => n_state m' = n_state m /\ n_prev m' = n_prev m /\
          o_label (n_data m') = o_label (n_data m) /\
          (forall l y, zget (o_nexts (n_data m')) l = Some y ->
             zget (o_nexts (n_data m)) l = Some y /\
             (is_freed (n_state m) = false -> n_prev n = Some x -> l <> o_label (n_data n)))
      | None, None => True
      | _, _ => False
      end).
  { destruct (n_prev n) as [b|] eqn:P.
    - destruct (Z.eq_dec b a) as [->|Hb].
      + rewrite zget_zset_same. cbn [bind cl n_state]. rewrite F. eexists. split; [reflexivity|].
        intros x Hx. rewrite !zget_zset_other by congruence.
        destruct (zget h x) as [m|]; auto. repeat split; auto. congruence.
      + rewrite zget_zset_other by auto.
        assert (Db : dom h b) by (apply (Hc a b); exists n; auto). unfold dom in Db.
        destruct (zget h b) as [m|] eqn:Eb; [|congruence]. cbn [bind].
        destruct (is_freed (n_state m)) eqn:Fm.
        * eexists. split; [reflexivity|]. intros x Hx. rewrite zget_zset_other by congruence.
          destruct (zget h x) as [m'|] eqn:Ex; auto. repeat split; auto.
          intros Fx Pb. assert (x = b) by congruence. subst. congruence.
        * eexists. split; [reflexivity|]. intros x Hx. rewrite zget_zset.
          destruct (Z.eqb_spec b x) as [->|Hbx].
          -- rewrite Eb. cbn. repeat split; auto; rewrite zget_zdel in H;
             destruct (Z.eqb_spec (o_label (n_data n)) l); congruence.
          -- rewrite zget_zset_other by congruence.
             destruct (zget h x) as [m'|] eqn:Ex; auto. repeat split; auto. congruence.
    - eexists. split; [reflexivity|]. intros x Hx. rewrite zget_zset_other by congruence.
      destruct (zget h x); auto. repeat split; auto. congruence. }
  destruct G as (h1 & E1 & H1). rewrite E1. cbn [bind].
  exists (zset h1 a fin), fin. split; auto. split; [apply zget_zset_same|]. split.
  { intros x Hx. rewrite zget_zset_other by congruence. specialize (H1 x Hx).
    destruct (zget h x), (zget h1 x); try tauto. }
  split; [left; reflexivity|].
  intros x m l y Ex Fx Ny.
  rewrite zget_zset in Ex. destruct (Z.eqb_spec a x) as [<-|Hx].
  { injection Ex as <-. discriminate. }
  rewrite zget_zset_other in Ex by auto.
  assert (Hx' : x <> a) by auto. pose proof (H1 x Hx') as G. rewrite Ex in G.
  destruct (zget h x) as [m0|] eqn:E0; [|tauto].
  destruct G as (S0 & P0 & L0 & N0). destruct (N0 l y Ny) as [Ny0 Hne]. rewrite S0 in Fx.
  destruct (Hi x m0 l y E0 Fx Ny0) as (w & Ew & Fw & Pw & Lw).
  destruct (Z.eq_dec y a) as [->|Hy].
  { rewrite E in Ew. injection Ew as <-. exfalso. apply (Hne Fx Pw). auto. }
  rewrite !zget_zset_other by congruence. specialize (H1 y Hy). rewrite Ew in H1.
  destruct (zget h1 y) as [w'|]; [|tauto]. destruct H1 as (S1 & P1 & L1 & _).
  exists w'. repeat split; congruence.
Qed.

Section Store.
  Variable B : Z.
  Hypothesis HB : 0 < B.

  Definition oinv (g : gcpool olabel) : Prop := ginv ninv B g.

  Lemma oinv_init : oinv ginit.
  Proof.
    constructor; cbn [ginit g_pool g_heap].
    - apply shape_init; auto.
    - intros a. unfold dom. rewrite zget_empty. unfold top. cbn. split; [congruence|lia].
    - constructor.
    - intros a. unfold freed. rewrite zget_empty. cbn. split; [tauto|discriminate].
    - intros a b (n & E & _). rewrite zget_empty in E. discriminate.
    - intros x n l y E. rewrite zget_empty in E. discriminate.
  Qed.

  (** A live node with this content. *)
  Definition holds (g : gcpool olabel) (a : Z) (prev : option Z) (l : Z) : Prop :=
    exists n, zget (g_heap g) a = Some n /\ is_freed (n_state n) = false /\
              n_prev n = prev /\ o_label (n_data n) = l.

  Lemma galloc_ok : forall g prev d, oinv g -> 
    (forall p, prev = Some p -> dom (g_heap g) p) -> o_nexts d = zempty ->
    exists g' a, galloc B g prev d = Ok (g', a) /\ oinv g' /\
      (forall x, x <> a -> zget (g_heap g') x = zget (g_heap g) x) /\
      zget (g_heap g') a = Some (mk_node Using prev d) /\
      (freed (g_heap g) a = true \/ zget (g_heap g) a = None) /\
      top B (g_pool g') = Z.max (a + 1) (top B (g_pool g)) /\ 0 <= a /\
      (p_free (g_pool g) <> [] -> In a (p_free (g_pool g))).
  Proof.
    intros g prev d [Gs Gd Gn Gf Gc Gi] Hp Hd. unfold galloc.
    assert (A : exists p' a, alloc B (g_pool g) = Ok (p', a) /\ shape B p' /\
      top B p' = Z.max (a + 1) (top B (g_pool g)) /\ 0 <= a /\ NoDup (p_free p') /\
      (forall x, In x (p_free p') <-> In x (p_free (g_pool g)) /\ x <> a) /\
      (freed (g_heap g) a = true \/ zget (g_heap g) a = None) /\ a <= top B (g_pool g) /\
      (p_free (g_pool g) <> [] -> In a (p_free (g_pool g)))).
    { destruct (p_free (g_pool g)) as [|a r] eqn:Ef.
      - destruct (alloc_bump B HB (g_pool g) Gs Ef) as (p' & E & Hs' & Ht & Hf & _).
        pose proof (top_nonneg B HB _ Gs).
        exists p', (top B (g_pool g)). split; auto. split; auto. split; [lia|]. split; auto.
        rewrite Hf. split; [constructor|]. split; [intros; cbn; tauto|].
        split; [|split; [lia|congruence]].
        right. destruct (zget (g_heap g) (top B (g_pool g))) eqn:E0; auto.
        assert (dom (g_heap g) (top B (g_pool g))) as D by (unfold dom; congruence).
        apply Gd in D. lia.
      - rewrite (alloc_pop B _ a r Ef). do 2 eexists. split; [reflexivity|].
        assert (Fa : freed (g_heap g) a = true) by (apply Gf; left; auto).
        assert (Da : 0 <= a < top B (g_pool g)).
        { apply Gd. unfold dom, freed in *. destruct (zget (g_heap g) a); congruence. }
        split; [destruct Gs; constructor; auto|].
        split; [unfold top in *; cbn; lia|]. split; [lia|].
        inversion Gn; subst. cbn [p_free]. split; auto. split.
        + intros x. cbn. split.
          * intros Hx. split; auto. intros ->. auto.
          * intros [[->|Hx] Hne]; [congruence|auto].
        + split; auto. split; [lia|]. intros _. left; auto. }
    destruct A as (p' & a & E & Hs & Ht & Ha & Nd & Fr & Fa & Hle & Hre). rewrite E. cbn [bind].
    pose proof (top_nonneg B HB _ Gs) as T0.
    do 2 eexists. split; [reflexivity|]. cbn [g_heap g_pool].
    assert (O : forall x, x <> a ->
      zget (zset (g_heap g) a (mk_node Using prev d)) x = zget (g_heap g) x)
      by (intros; apply zget_zset_other; auto).
    assert (Dm : forall x, dom (zset (g_heap g) a (mk_node Using prev d)) x <-> x = a \/ dom (g_heap g) x).
    { intros x. unfold dom. rewrite zget_zset. destruct (Z.eqb_spec a x); split; auto; try congruence.
      - intros [G|G]; auto. }
    split; [constructor; cbn [g_heap g_pool]|].
    - auto.
    - intros x. rewrite Dm, Gd, Ht. destruct (Z.eq_dec x a); lia.
    - auto.
    - intros x. rewrite Fr. unfold freed. rewrite zget_zset. destruct (Z.eqb_spec a x) as [<-|Hx].
      + cbn. split; [tauto|discriminate].
      + specialize (Gf x). unfold freed in Gf. rewrite Gf. split; [tauto|]. auto.
    - intros x y (n & En & Pn). apply Dm. rewrite zget_zset in En.
      destruct (Z.eqb_spec a x).
      + injection En as <-. cbn in Pn. right. apply Hp; auto.
      + right. apply (Gc x y). exists n; auto.
    - intros x n l y Ex Fx Ny. rewrite zget_zset in Ex. destruct (Z.eqb_spec a x).
      + injection Ex as <-. cbn in Ny. rewrite Hd, zget_empty in Ny. discriminate.
      + destruct (Gi x n l y Ex Fx Ny) as (m & Em & Fm & Pm & Lm).
        assert (y <> a).
        { intros ->. destruct Fa as [Fa|Fa]; [|congruence]. unfold freed in Fa. rewrite Em in Fa. congruence. }
        rewrite O by auto. eauto.
    - split; auto. split; [apply zget_zset_same|]. auto.
  Qed.

  Lemma child_ok : forall g prev l, oinv g ->
    (forall p, prev = Some p -> exists q k, holds g p q k) ->
    exists g' a, child B g prev l = Ok (g', a) /\ oinv g' /\ holds g' a prev l /\
      0 <= a /\ top B (g_pool g') = Z.max (a + 1) (top B (g_pool g)) /\
      (forall x q k, holds g x q k -> holds g' x q k) /\
      (forall x, marked (g_heap g') x = true -> marked (g_heap g) x = true) /\
      (marked (g_heap g') a = true -> marked (g_heap g) a = true).
  Proof.
    intros g prev l Hi Hp. unfold child.
    assert (Found : exists o, 
      match prev with
      | None => Ok None
      | Some p => n <- deref (g_heap g) p ;; Ok (zget (o_nexts (n_data n)) l)
      end = Ok o /\ (forall a, o = Some a -> holds g a prev l)).
    { destruct prev as [p|]; [|exists None; split; [auto|discriminate]].
      destruct (Hp p eq_refl) as (q & k & n & En & Fn & _). unfold deref. rewrite En. cbn [bind].
      eexists. split; [reflexivity|]. intros a Ha.
      destruct (gi_inv _ _ _ Hi p n l a En Fn Ha) as (m & Em & Fm & Pm & Lm).
      exists m. auto. }
    destruct Found as (o & E & Ho). rewrite E. cbn [bind].
    destruct o as [a|].
    - specialize (Ho a eq_refl). exists g, a. split; auto. split; auto. split; auto.
      assert (Da : 0 <= a < top B (g_pool g)).
      { apply (gi_dom _ _ _ Hi). destruct Ho as (n & En & _). unfold dom. congruence. }
      split; [lia|]. split; [lia|]. auto.
    - clear Ho E.
      destruct (galloc_ok g prev (mk_olabel l zempty) Hi) as
        (g1 & a & E1 & Hi1 & O1 & A1 & Fa & T1 & Ha & _); auto.
      { intros p ->. destruct (Hp p eq_refl) as (q & k & n & En & _). unfold dom. congruence. }
      rewrite E1. cbn [bind].
      assert (H1 : forall x q k, holds g x q k -> holds g1 x q k /\ x <> a).
      { intros x q k (n & En & Fn & Pn & Ln).
        assert (x <> a).
        { intros ->. destruct Fa as [Fa|Fa]; [|congruence]. unfold freed in Fa.
          rewrite En in Fa. congruence. }
        split; auto. exists n. rewrite O1 by auto. auto. }
      assert (M1 : forall x, marked (g_heap g1) x = true -> marked (g_heap g) x = true).
      { intros x. unfold marked. destruct (Z.eq_dec x a) as [->|Hx].
        - rewrite A1. discriminate.
        - rewrite O1 by auto. auto. }
      destruct prev as [p|].
      + destruct (Hp p eq_refl) as (q & k & Hh). destruct (H1 _ _ _ Hh) as [Hh1 Hpa].
        destruct Hh1 as (n & En & Fn & Pn & Ln). unfold deref. rewrite En. cbn [bind].
        set (n' := mk_node (n_state n) (n_prev n)
              (mk_olabel (o_label (n_data n)) (zset (o_nexts (n_data n)) l a))).
        exists (mk_gcpool (g_pool g1) (zset (g_heap g1) p n')), a. split; auto.
        assert (Z2 : forall x, zget (zset (g_heap g1) p n') x = if Z.eqb p x then Some n' else zget (g_heap g1) x)
          by (intros; apply zget_zset).
        assert (H2 : forall x q k, holds g1 x q k ->
                  holds (mk_gcpool (g_pool g1) (zset (g_heap g1) p n')) x q k).
        { intros x q' k' (m & Em & Fm & Pm & Lm). unfold holds. cbn [g_heap]. rewrite Z2.
          destruct (Z.eqb_spec p x).
          - subst x. rewrite En in Em. injection Em as <-. exists n'. auto.
          - exists m. auto. }
        split; [constructor; cbn [g_pool g_heap]|].
        * apply (gi_shape _ _ _ Hi1).
        * intros x. rewrite <- (gi_dom _ _ _ Hi1). unfold dom. rewrite Z2.
          destruct (Z.eqb_spec p x); [subst; rewrite En|]; split; congruence.
        * apply (gi_nodup _ _ _ Hi1).
        * intros x. rewrite (gi_free _ _ _ Hi1). unfold freed. rewrite Z2.
          destruct (Z.eqb_spec p x); [subst; rewrite En|]; tauto.
        * intros x y (m & Em & Pm). rewrite Z2 in Em.
          assert (dom (g_heap g1) y) as Dy.
          { destruct (Z.eqb_spec p x).
            - subst x. injection Em as <-. apply (gi_closed _ _ _ Hi1 p y). exists n. auto.
            - apply (gi_closed _ _ _ Hi1 x y). exists m. auto. }
          unfold dom in *. rewrite Z2. destruct (Z.eqb_spec p y); congruence.
        * intros x m k' y Ex Fx Ny. rewrite Z2 in Ex.
          assert (Base : forall k0 y0 m0, zget (g_heap g1) x = Some m0 -> is_freed (n_state m0) = false ->
                     zget (o_nexts (n_data m0)) k0 = Some y0 ->
                     exists w, zget (zset (g_heap g1) p n') y0 = Some w /\
                       is_freed (n_state w) = false /\ n_prev w = Some x /\ o_label (n_data w) = k0).
          { intros k0 y0 m0 E0 F0 N0.
            destruct (gi_inv _ _ _ Hi1 x m0 k0 y0 E0 F0 N0) as (w & Ew & Fw & Pw & Lw).
            destruct (H2 y0 (Some x) k0) as (w' & G); [exists w; auto|]. exists w'. auto. }
          destruct (Z.eqb_spec p x).
          -- subst x. injection Ex as <-. cbn in Ny. rewrite zget_zset in Ny.
             destruct (Z.eqb_spec l k').
             ++ injection Ny as <-. subst k'. rewrite Z2.
                destruct (Z.eqb_spec p a); [congruence|]. rewrite A1.
                eexists. split; [reflexivity|]. auto.
             ++ eapply Base; eauto.
          -- eapply Base; eauto.
        * split; [apply H2; exists (mk_node Using (Some p) (mk_olabel l zempty)); auto|].
          split; auto. split; auto. split.
          { intros x q' k' Hx. apply H2. apply (H1 _ _ _ Hx). }
          assert (M2 : forall x, marked (zset (g_heap g1) p n') x = true -> marked (g_heap g) x = true).
          { intros x Hx. apply M1. unfold marked in *. rewrite Z2 in Hx.
            destruct (Z.eqb_spec p x); auto. subst x. rewrite En. auto. }
          cbn [g_heap]. auto.
      + exists g1, a. split; auto. split; auto. split.
        { exists (mk_node Using None (mk_olabel l zempty)). auto. }
        split; auto. split; auto. split; [|auto].
        intros x q k Hx. apply (H1 _ _ _ Hx).
  Qed.

  (** The store agrees with the specification. *)
  Record agrees (g : gcpool olabel) (past : list gevent) : Prop := {
    ag_inv : oinv g;
    ag_top : top B (g_pool g) = slots_used past;
    ag_holds : forall a prev l, usable past a prev l -> holds g a prev l;
    ag_closed : forall a b l, usable past a (Some b) l -> exists q k, usable past b q k;
    ag_mark : marked (g_heap g) (slots_used past - 1) = true -> survived past (slots_used past - 1)
  }.

  Lemma agrees_init : agrees ginit [].
  Proof.
    constructor.
    - apply oinv_init.
    - reflexivity.
    - intros a prev l [].
    - intros a b l [].
    - unfold marked, ginit. cbn [g_heap]. rewrite zget_empty. discriminate.
  Qed.

  Lemma agrees_child : forall g past prev l,
    agrees g past -> valid_child past prev ->
    exists g' a, child B g prev l = Ok (g', a) /\ agrees g' (EChild prev l a :: past) /\
      holds g' a prev l /\ (forall x q k, holds g x q k -> holds g' x q k).
  Proof.
    intros g past prev l [Ai At Ah Ac Am] Hv.
    destruct (child_ok g prev l Ai) as (g' & a & E & Hi' & Hh & Ha & Ht & Hk & Hm & Hma).
    { intros p ->. destruct Hv as (q & k & Hu). eauto. }
    exists g', a. split; auto. split; [constructor|split; auto].
    - auto.
    - cbn [slots_used]. lia.
    - intros x q k Hu. cbn [usable] in Hu. destruct (Z.eq_dec x a) as [->|Hx].
      + destruct Hu as [-> ->]. auto.
      + auto.
    - intros x y k Hu. cbn [usable] in *. destruct (Z.eq_dec x a) as [->|Hx].
      + destruct Hu as [Hu ->]. subst prev. destruct Hv as (q & k & Hu).
        destruct (Z.eq_dec y a); eauto.
      + destruct (Ac x y k Hu) as (q & k' & Hu'). destruct (Z.eq_dec y a); eauto.
    - cbn [slots_used survived]. intros M.
      destruct (Z_lt_le_dec a (slots_used past)).
      + rewrite Z.max_r in * by lia. auto.
      + rewrite Z.max_l in * by lia. apply Hm in M. unfold marked in M.
        replace (a + 1 - 1) with a in * by lia.
        destruct (zget (g_heap g) a) eqn:E0; [|discriminate].
        assert (D : dom (g_heap g) a) by (unfold dom; congruence).
        apply (gi_dom _ _ _ Ai) in D. lia.
  Qed.

  Lemma usable_fun : forall g past a q k q' k', agrees g past ->
    usable past a q k -> usable past a q' k' -> q = q' /\ k = k'.
  Proof.
    intros g past a q k q' k' A H1 H2.
    apply (ag_holds _ _ A) in H1. apply (ag_holds _ _ A) in H2.
    destruct H1 as (n & E & _ & P & L), H2 as (n' & E' & _ & P' & L').
    split; congruence.
  Qed.

  Lemma reachable_usable : forall g past roots a,
    agrees g past -> valid_roots past roots -> reachable past roots a ->
    exists q k, usable past a q k.
  Proof.
    intros g past roots a A Hv H. induction H as [a Ha|a b H IH (k & Hu)]; auto.
    eapply (ag_closed _ _ A); eauto.
  Qed.

  Lemma reach_agrees : forall g past roots a,
    agrees g past -> valid_roots past roots ->
    (reach (link (g_heap g)) roots a <-> reachable past roots a).
  Proof.
    intros g past roots a A Hv. split.
    - intros H. induction H as [a Ha|a b H IH L]; [now apply reach_root|].
      eapply reach_step; [exact IH|].
      destruct (reachable_usable g past roots a A Hv IH) as (q & k & Hu).
      destruct (ag_holds _ _ A _ _ _ Hu) as (n & E & _ & P & _).
      destruct L as (n' & E' & P'). exists k. replace (Some b) with q by congruence. exact Hu.
    - intros H. induction H as [a Ha|a b H IH (k & Hu)]; [now apply reach_root|].
      eapply reach_step; [exact IH|].
      destruct (ag_holds _ _ A _ _ _ Hu) as (n & E & _ & P & _). exists n. auto.
  Qed.

  Lemma agrees_gc : forall g past roots,
    agrees g past -> valid_roots past roots -> safe_roots past roots ->
    exists g', ogc B g roots = Ok g' /\ agrees g' (ECollect roots :: past) /\
      (forall a, In a (p_free (g_pool g')) <->
         In a (p_free (g_pool g)) \/
         (0 <= a < slots_used past - 1 /\ ~ reachable past roots a)).
  Proof.
    intros g past roots A Hv Hs. pose proof A as [Ai At Ah Ac Am].
    destruct (gc_spec o_label on_collect ninv ninv_sim on_collect_ok B HB g roots Ai)
      as (g' & E & Hi' & Ht & Hf & Hk & Hm).
    { intros a Ha. apply (reach_agrees g past roots a A Hv) in Ha.
      destruct (reachable_usable g past roots a A Hv Ha) as (q & k & Hu).
      destruct (Ah _ _ _ Hu) as (n & En & Fn & _). unfold dom, freed. rewrite En.
      split; [congruence|auto]. }
    { intros b M Rl L. apply (reach_agrees g past roots _ A Hv) in Rl. rewrite At in *.
      apply Hs. split; auto. split; auto.
      destruct (reachable_usable g past roots _ A Hv Rl) as (q & k & Hu).
      destruct (Ah _ _ _ Hu) as (n & En & _ & P & _). destruct L as (n' & En' & P').
      exists b, k. replace (Some b) with q by congruence. exact Hu. }
    exists g'. split; auto. split; [constructor|].
    - auto.
    - cbn [slots_used]. congruence.
    - intros a q k [Hu Hr]. destruct (Ah _ _ _ Hu) as (n & En & Fn & Pn & Ln).
      assert (F' : freed (g_heap g') a = false).
      { destruct (freed (g_heap g') a) eqn:F'; auto. exfalso. apply Hf in F'.
        destruct F' as [F'|(_ & _ & Hn)].
        - unfold freed in F'. rewrite En in F'. congruence.
        - apply Hn. apply (reach_agrees g past roots a A Hv). exact Hr. }
      destruct (Hk a n En F') as (n' & En' & Pn' & Ln'). exists n'. split; auto.
      unfold freed in F'. rewrite En' in F'. repeat split; congruence.
    - intros a b k [Hu Hr]. destruct (Ac _ _ _ Hu) as (q & k' & Hu'). exists q, k'.
      split; auto. eapply reach_step; [exact Hr|]. eauto.
    - cbn [slots_used survived]. intros M. destruct (Hm _ M) as [G|[_ G]].
      + left. apply (reach_agrees g past roots _ A Hv). auto.
      + right. rewrite At in G. auto.
    - intros a. rewrite (gi_free _ _ _ Hi'), Hf, <- (gi_free _ _ _ Ai).
      rewrite (reach_agrees g past roots a A Hv), (gi_dom _ _ _ Ai), At.
      assert (0 <= a < slots_used past /\ a <> slots_used past - 1 <-> 0 <= a < slots_used past - 1) by lia.
      tauto.
  Qed.

  Lemma usage_agrees : forall g past, usage B safe_roots g past -> agrees g past.
  Proof.
    intros g past H. induction H as [|g past prev l g' a H IH Hv E|g past roots g' H IH Hv Hs E].
    - apply agrees_init.
    - destruct (agrees_child g past prev l IH Hv) as (g1 & a1 & E1 & A1 & _).
      rewrite E in E1. injection E1 as <- <-. auto.
    - destruct (agrees_gc g past roots IH Hv Hs) as (g1 & E1 & A1 & _).
      rewrite E in E1. injection E1 as <-. auto.
  Qed.

  Lemma store_keeps : forall g past, usage B safe_roots g past ->
    (forall a prev l, usable past a prev l ->
       ~ In a (p_free (g_pool g)) /\
       exists n, zget (g_heap g) a = Some n /\ n_prev n = prev /\ o_label (n_data n) = l) /\
    (forall prev l, valid_child past prev ->
       exists g' a, child B g prev l = Ok (g', a) /\
         forall q k, usable past a q k -> q = prev /\ k = l) /\
    (forall roots, valid_roots past roots -> safe_roots past roots ->
       exists g', ogc B g roots = Ok g').
  Proof.
    intros g past H. apply usage_agrees in H. split; [|split].
    - intros a prev l Hu. destruct (ag_holds _ _ H _ _ _ Hu) as (n & E & F & P & L). split; eauto.
      rewrite (gi_free _ _ _ (ag_inv _ _ H)). unfold freed. rewrite E. congruence.
    - intros prev l Hv. destruct (agrees_child g past prev l H Hv) as (g' & a & E & A' & Hh & Hk).
      exists g', a. split; auto. intros q k Hu. apply (ag_holds _ _ H) in Hu. apply Hk in Hu.
      destruct Hu as (n & En & _ & P & L), Hh as (n' & En' & _ & P' & L'). split; congruence.
    - intros roots Hv Hs. destruct (agrees_gc g past roots H Hv Hs) as (g' & E & _). eauto.
  Qed.

  Lemma store_frees : forall g past roots g',
    usage B safe_roots g past -> valid_roots past roots -> safe_roots past roots ->
    ogc B g roots = Ok g' ->
    (forall a, 0 <= a < slots_used past - 1 -> ~ reachable past roots a -> In a (p_free (g_pool g'))) /\
    (forall a, reachable past roots a -> ~ In a (p_free (g_pool g'))) /\
    (p_free (g_pool g') <> [] -> forall l, exists g'' a,
       child B g' None l = Ok (g'', a) /\ In a (p_free (g_pool g'))).
  Proof.
    intros g past roots g' H Hv Hs E. apply usage_agrees in H.
    destruct (agrees_gc g past roots H Hv Hs) as (g1 & E1 & A1 & F1).
    rewrite E in E1. injection E1 as <-. split; [|split].
    - intros a Ha Hn. apply F1. auto.
    - intros a Hr Hin. destruct (reachable_usable g past roots a H Hv Hr) as (q & k & Hu).
      destruct (ag_holds _ _ A1 a q k) as (n & En & Fn & _); [split; auto|].
      apply (gi_free _ _ _ (ag_inv _ _ A1)) in Hin. unfold freed in Hin. rewrite En in Hin. congruence.
    - intros Hne l. unfold child. cbn [bind].
      destruct (galloc_ok g' None (mk_olabel l zempty) (ag_inv _ _ A1)) as
        (g2 & a & E2 & _ & _ & _ & _ & _ & _ & Hin); auto; [discriminate|].
      rewrite E2. cbn [bind]. eauto.
  Qed.

  (** Safety is implied by growth. *)
  Lemma usable_slot : forall past a q k, usable past a q k -> a < slots_used past.
  Proof.
    induction past as [|e r IH]; intros a q k H; [destruct H|]. destruct e as [p l b|roots]; cbn in *.
    - destruct (Z.eq_dec a b); [lia|]. apply IH in H. lia.
    - destruct H as [H _]. eauto.
  Qed.

  Definition no_collect (past : list gevent) : Prop := forall roots, ~ In (ECollect roots) past.

  Lemma survived_slot : forall P g past, usage B P g past ->
    (forall a b l, usable past a (Some b) l -> exists q k, usable past b q k) /\
    forall a, survived past a -> a < slots_used past.
  Proof.
    intros P g past H.
    induction H as [|g past prev l g' a H [IC IH] Hv E|g past roots g' H [IC IH] Hv Hs E].
    - split; [intros ? ? ? []|intros ? []].
    - split.
      + intros x y k Hu. cbn [usable] in *. destruct (Z.eq_dec x a) as [->|Hx].
        * destruct Hu as [Hu ->]. subst prev. destruct Hv as (q & k & Hu).
          destruct (Z.eq_dec y a); eauto.
        * destruct (IC x y k Hu) as (q & k' & Hu'). destruct (Z.eq_dec y a); eauto.
      + intros x Hx. cbn in *. apply IH in Hx. lia.
    - assert (G : forall x, reachable past roots x -> exists q k, usable past x q k).
      { intros x Hx. induction Hx as [x Hx|x y Hx IHx (k & Hu)]; auto. eapply IC; eauto. }
      split.
      + intros x y k [Hu Hr]. destruct (IC _ _ _ Hu) as (q & k' & Hu'). exists q, k'.
        split; auto. eapply reach_step; [exact Hr|]. eauto.
      + intros x Hx. cbn in *. destruct Hx as [Hx|Hx]; auto.
        destruct (G x Hx) as (q & k & Hu). eapply usable_slot; eauto.
  Qed.

  Lemma survived_app : forall recent past a,
    no_collect recent -> survived (recent ++ past) a -> survived past a.
  Proof.
    induction recent as [|e r IH]; intros past a Hn H; auto.
    destruct e as [p l b|roots].
    - apply IH; auto. intros roots Hin. apply (Hn roots). right; auto.
    - exfalso. apply (Hn roots). left; auto.
  Qed.

  Lemma growth_is_safe : forall P g past recent g' roots,
    usage B P g past -> no_collect recent -> usage B P g' (recent ++ past) ->
    past = [] \/ slots_used past < slots_used (recent ++ past) ->
    safe_roots (recent ++ past) roots.
  Proof.
    intros P g past recent g' roots H Hn H' Hg (_ & Hsv & _).
    apply survived_app in Hsv; auto. destruct Hg as [->|Hg]; [destruct Hsv|].
    apply (proj2 (survived_slot P g past H)) in Hsv. lia.
  Qed.
End Store.
