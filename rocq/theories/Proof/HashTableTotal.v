(** Total correctness of the hash table within the range where the probe loop
    is known to end. *)
From Coq Require Import ZArith List Bool Lia.
From Verif.Base Require Import Prelude ZMap Lemmas.
From Verif.Spec Require Import MapSpec.
From Verif.Model Require Import HashTable.
From Verif.Proof Require Import NumberTheory HashTable HashTableProbe.
Import ListNotations.
Open Scope Z_scope.
Local Opaque HashTable.lookup guaranteed.

Lemma prime30 : getZ primes 30 = Ok 1073741827.
Proof. reflexivity. Qed.
Lemma prime31 : getZ primes 31 = Ok 2147483647.
Proof. reflexivity. Qed.

Lemma next_prime : forall i p q,
  getZ primes i = Ok p -> getZ primes (i + 1) = Ok q -> p <= q /\ (5 <= p -> p + 6 <= q) /\ (q = 2 -> p = 2).
Proof.
  intros i p q Hp Hq.
  pose proof (getZ_lt _ _ _ _ Hq) as Hr. pose proof (getZ_lt _ _ _ _ Hp) as Hr'.
  change (lenZ primes) with 32 in *.
  assert (H : forallb (fun i => match getZ primes i, getZ primes (i + 1) with
                      | Ok p, Ok q => (p <=? q) && ((p <? 5) || (p + 6 <=? q))
                                      && ((p =? 2) || negb (q =? 2))
                      | _, _ => true end) (seqZ 0 32) = true) by (vm_compute; reflexivity).
  rewrite forallb_forall in H. specialize (H i).
  rewrite in_seqZ in H. specialize (H ltac:(lia)). rewrite Hp, Hq in H.
  lia.
Qed.

Lemma prime_kinds : forall i p, getZ primes i = Ok p ->
  p = 2 \/ (5 <= p <= 32771 /\ p mod 2 = 1) \/ (65537 <= p <= 1073741827) \/ p = 2147483647.
Proof.
  intros i p H. apply primes_cover in H. destruct H as [H|[H|[H|H]]]; auto.
  - right; left. now apply small_bounds.
  - right; right; left. now apply large_bounds.
Qed.

Lemma guaranteed_ge : forall i p, getZ primes i = Ok p -> p <> 2 -> p <= 1073741827 ->
  forall n, 2 * n <= p -> n < 32767 -> n < guaranteed p.
Proof.
  intros i p Hi H2 Hl n Hn Hn2. pose proof (prime_kinds i p Hi) as Hk.
  Local Transparent guaranteed. unfold guaranteed. Local Opaque guaranteed.
  destruct (Z.eqb_spec p 2); [lia|].
  destruct (Z.leb_spec p 32771).
  - destruct Hk as [?|[[? ?]|[?|?]]]; try lia.
    destruct (Z.eqb_spec (p mod 4) 3); [lia|].
    assert (n + 1 <= (p + 1) / 2); [|lia]. apply Z.div_le_lower_bound; [lia|].
    assert (2 * n <> p); [|lia]. intro. subst p. rewrite Z.mul_comm, Z_mod_mult in H1. lia.
  - destruct (Z.leb_spec p 1073741827); lia.
Qed.

Section Total.
  Variables K V : Type.
  Variable keq : K -> K -> bool.
  Hypothesis keq_spec : forall a b, keq a b = true <-> a = b.
  Variable hash : K -> Z.

  Notation inv := (inv K V keq hash).

  Lemma rehash_total : forall idxs (old new : zmap (K * V)) i ns done,
    getZ primes i = Ok ns ->
    NoDup idxs ->
    (forall i j k v w, zget old i = Some (k, v) -> zget old j = Some (k, w) -> i = j) ->
    (forall i, In i idxs -> ~ In i done) ->
    placed K V keq hash new ns ->
    (forall k v, stored_at K V old done k v <-> exists i, zget new i = Some (k, v)) ->
    Z.of_nat (count K V new (all ns)) + Z.of_nat (count K V old idxs) <= guaranteed ns ->
    exists s, rehash keq hash idxs old new ns = Ok s.
  Proof.
    induction idxs; intros old new i ns done Hns Hnd Huq Hdj Hp Hst Hc; simpl.
    - eauto.
    - inversion Hnd; subst. rewrite count_cons in Hc.
      pose proof (primes_pos _ _ Hns) as Hpos.
      destruct (zget old a) as [[k v]|] eqn:Ea.
      + destruct (lookup_guaranteed K V keq hash new i ns k Hns ltac:(lia)) as [x El].
        rewrite El. cbn [bind].
        assert (En : zget new x = None).
        { pose proof (lookup_stop _ _ _ _ _ _ _ _ El) as Hs. unfold stops_at in Hs.
          destruct (zget new x) as [[k' v']|] eqn:En; auto. exfalso.
          apply keq_spec in Hs; subst.
          destruct (proj2 (Hst k v')) as [j [Hj Hjo]]; [eauto|].
          assert (j = a) by eauto. subst. apply (Hdj a); [left|]; auto. }
        rewrite En. cbn [check bind].
        assert (Hns0 : 0 < ns) by lia.
        pose proof (lookup_range _ _ _ _ _ _ _ _ Hns0 El) as Hra.
        apply (IHidxs old (zset new x (k, v)) i ns (done ++ [a]) Hns H2 Huq).
        * intros j Hj Hin. apply in_app_or in Hin. destruct Hin as [Hin|[Hin|[]]]; subst; auto.
          eapply Hdj; [right|]; eauto.
        * eapply placed_fill; eassumption.
        * intros k' v'. split.
          -- intros [j [Hj Hjo]]. apply in_app_or in Hj. destruct Hj as [Hj|[Hj|[]]].
             ++ destruct (proj1 (Hst k' v')) as [y Hy]; [exists j; auto|].
                exists y. rewrite zget_zset_other; auto. congruence.
             ++ subst. rewrite Ea in Hjo. inversion Hjo; subst.
                exists x. apply zget_zset_same.
          -- intros [j Hj]. rewrite zget_zset in Hj. destruct (Z.eqb_spec x j).
             ++ inversion Hj; subst. exists a. split; auto. apply in_or_app; right; left; auto.
             ++ destruct (proj2 (Hst k' v')) as [y [Hy Hyo]]; [eauto|].
                exists y; split; auto. apply in_or_app; auto.
        * rewrite count_set_new; [lia| | |auto].
          -- apply NoDup_seqZ.
          -- now apply in_all.
      + apply (IHidxs old new i ns (done ++ [a]) Hns H2 Huq); auto.
        * intros j Hj Hin. apply in_app_or in Hin. destruct Hin as [Hin|[Hin|[]]]; subst; auto.
          eapply Hdj; [right|]; eauto.
        * intros k' v'. rewrite <- Hst. split; intros [j [Hj Hjo]]; exists j; split; auto.
          -- apply in_app_or in Hj. destruct Hj as [Hj|[Hj|[]]]; auto. subst. congruence.
          -- apply in_or_app; auto.
  Qed.

  (** The load of every reachable table. *)
  Definition loaded (t : table K V) : Prop := 2 * t_size t <= t_bucket_size t + 2.

  Lemma extend_total : forall t past,
    inv t past -> loaded t -> t_bucket_size t < 2 * t_size t ->
    t_bucket_size t <> 2 -> t_size t < 32767 ->
    exists t', extend keq hash t = Ok t'.
  Proof.
    intros t past Hinv Hl Hlt H2 Hs. unfold loaded in Hl.
    pose proof (inv_prime _ _ _ _ _ _ Hinv) as Hpr.
    pose proof (prime_kinds _ _ Hpr) as Hk.
    assert (t_prime_idx t <= 30).
    { destruct (Z_le_gt_dec (t_prime_idx t) 30); auto.
      pose proof (getZ_lt _ _ _ _ Hpr) as Hr. change (lenZ primes) with 32 in Hr.
      assert (t_prime_idx t = 31) as E by lia. rewrite E, prime31 in Hpr.
      injection Hpr as Hpr. lia. }
    pose proof (getZ_lt _ _ _ _ Hpr) as Hr.
    destruct (getZ_total _ primes (t_prime_idx t + 1)) as [q Hq];
      [change (lenZ primes) with 32; lia|].
    unfold extend. rewrite Hq. cbn [bind].
    destruct (next_prime _ _ _ Hpr Hq) as (Hle & Hgap & H22).
    assert (q <> 2147483647 /\ q <> 2).
    { split; [|lia]. intro; subst q.
      assert (t_prime_idx t = 30) as E.
      { assert (X : forallb (fun i => match getZ primes (i + 1) with
                    | Ok q => negb (q =? 2147483647) || (i =? 30) | _ => true end)
                   (seqZ 0 32) = true) by (vm_compute; reflexivity).
        rewrite forallb_forall in X. specialize (X (t_prime_idx t)).
        rewrite in_seqZ, Hq in X. specialize (X ltac:(lia)). lia. }
      rewrite E, prime30 in Hpr. injection Hpr as Hpr. lia. }
    pose proof (prime_kinds _ _ Hq) as Hkq.
    pose proof (guaranteed_ge _ _ Hq ltac:(lia) ltac:(lia) (t_size t) ltac:(lia) Hs) as Hg.
    destruct (rehash_total (seqZ 0 (Z.to_nat (t_bucket_size t))) (t_slots t) zempty
                (t_prime_idx t + 1) q [] Hq) as [s Hs'].
    - apply NoDup_seqZ.
    - intros i j k v w A B.
      exact (placed_unique _ _ _ _ _ _ _ _ _ _ _ (inv_placed _ _ _ _ _ _ Hinv) A B).
    - intros ? ? [].
    - apply placed_empty.
    - intros k v; split.
      + intros [? [[] _]].
      + intros [i Hi]; rewrite zget_empty in Hi; discriminate.
    - rewrite count_empty. pose proof (inv_count _ _ _ _ _ _ Hinv) as Hc.
      unfold all in Hc. rewrite Hc. rewrite (inv_size _ _ _ _ _ _ Hinv) in Hg. lia.
    - rewrite Hs'. cbn [bind]. eauto.
  Qed.

  Lemma extend_fields : forall (t t' : table K V), extend keq hash t = Ok t' ->
    t_size t' = t_size t /\
    exists q, getZ primes (t_prime_idx t + 1) = Ok q /\ t_bucket_size t' = q.
  Proof.
    intros t t' H. unfold extend in H. inv_bind H. inv_bind H. inversion H; subst. simpl. eauto.
  Qed.

  Lemma insert_loaded : forall t past k v t',
    inv t past -> loaded t -> insert keq hash t k v = Ok t' ->
    loaded t' /\ t_bucket_size t <= t_bucket_size t'.
  Proof.
    intros t past k v t' Hinv Hl H. unfold insert in H. inv_bind H. inv_bind H.
    assert (2 * t_size a <= t_bucket_size a /\ t_bucket_size t <= t_bucket_size a \/
            t_bucket_size a < 2 * t_size a /\ loaded a /\ t_bucket_size a = 2
             /\ t_bucket_size t = 2) as Ha.
    { destruct (Z.ltb_spec (t_bucket_size t) (2 * t_size t)).
      - destruct (extend_fields _ _ Hb) as [Es [q [Hq Eq]]].
        destruct (next_prime _ _ _ (inv_prime _ _ _ _ _ _ Hinv) Hq) as (Hle & Hgap & H22).
        pose proof (prime_kinds _ _ (inv_prime _ _ _ _ _ _ Hinv)) as Hk.
        pose proof (prime_kinds _ _ Hq) as Hkq.
        unfold loaded in *. rewrite Es, Eq.
        destruct (Z.eq_dec q 2); [|left; lia].
        right. specialize (H22 e). lia.
      - inversion Hb; subst. left; lia. }
    unfold loaded in *.
    destruct (zget (t_slots a) a0) as [[k' w]|] eqn:E.
    - inv_bind H. inversion H; subst; cbn [t_size t_bucket_size]. lia.
    - inversion H; subst; cbn [t_size t_bucket_size].
      destruct Ha as [Ha|Ha]; [lia|].
      (* a two-bucket table with two entries has no empty slot *)
      exfalso. destruct Ha as (Hs & Hl' & Hb2 & Hb3).
      assert (Ia : inv a past).
      { destruct (Z.ltb_spec (t_bucket_size t) (2 * t_size t)).
        - eapply extend_inv; eauto.
        - inversion Hb; subst; auto. }
      pose proof (inv_count _ _ _ _ _ _ Ia) as Hc. pose proof (inv_size _ _ _ _ _ _ Ia) as Hsz.
      assert (Hr : 0 <= a0 < 2).
      { rewrite Hb2 in Hb0. eapply (lookup_range _ _ _ _ _ 2); [lia|exact Hb0]. }
      rewrite Hb2 in Hc. unfold all in Hc.
      pose proof (count_set_new K V (t_slots a) a0 (k, v) (seqZ 0 (Z.to_nat 2))
                    (NoDup_seqZ _ _)) as Hn.
      rewrite in_seqZ in Hn. specialize (Hn ltac:(lia) E).
      rewrite Hc in Hn.
      assert (count K V (zset (t_slots a) a0 (k, v)) (seqZ 0 (Z.to_nat 2)) <= 2)%nat.
      { unfold count. etransitivity; [apply filter_length_le|]. reflexivity. }
      lia.
  Qed.

  Lemma insert_total : forall t past k v,
    inv t past -> loaded t -> t_bucket_size t <> 2 -> t_bucket_size t <= 1073741827 ->
    t_size t < 32767 ->
    exists t', insert keq hash t k v = Ok t' /\ t_bucket_size t' <> 2 /\
               t_bucket_size t' <= 1073741827.
  Proof.
    intros t past k v Hinv Hl H2 Hb Hs.
    assert (exists t1, (if t_bucket_size t <? 2 * t_size t then extend keq hash t else Ok t) = Ok t1
              /\ inv t1 past /\ t_bucket_size t1 <> 2 /\ t_bucket_size t1 <= 1073741827
              /\ 2 * t_size t1 <= t_bucket_size t1 /\ t_size t1 = t_size t)
      as (t1 & E1 & I1 & B1 & B2 & B3 & B4).
    { destruct (Z.ltb_spec (t_bucket_size t) (2 * t_size t)).
      - destruct (extend_total t past Hinv Hl H H2 Hs) as [t1 E1].
        exists t1. split; auto.
        destruct (extend_fields _ _ E1) as [Es [q [Hq Eq]]].
        destruct (extend_inv _ _ _ keq_spec _ _ _ _ Hinv E1) as [I1 _].
        destruct (next_prime _ _ _ (inv_prime _ _ _ _ _ _ Hinv) Hq) as (Hle & Hgap & H22).
        pose proof (prime_kinds _ _ (inv_prime _ _ _ _ _ _ Hinv)) as Hk.
        pose proof (prime_kinds _ _ Hq) as Hkq.
        unfold loaded in *. rewrite Es, Eq.
        split; [exact I1|]. split; [lia|]. split; [|lia].
        destruct Hkq as [?|[?|[?|?]]]; try lia.
        exfalso. subst q.
        assert (t_prime_idx t = 30) as E.
        { assert (X : forallb (fun i => match getZ primes (i + 1) with
                    | Ok q => negb (q =? 2147483647) || (i =? 30) | _ => true end)
                   (seqZ 0 32) = true) by (vm_compute; reflexivity).
          rewrite forallb_forall in X. specialize (X (t_prime_idx t)).
          pose proof (getZ_lt _ _ _ _ (inv_prime _ _ _ _ _ _ Hinv)) as Hr.
          change (lenZ primes) with 32 in Hr.
          rewrite in_seqZ, Hq in X. specialize (X ltac:(lia)). lia. }
        pose proof (inv_prime _ _ _ _ _ _ Hinv) as Hpr.
        rewrite E, prime30 in Hpr. injection Hpr as Hpr. lia.
      - exists t. split; [reflexivity|]. split; [exact Hinv|]. lia. }
    unfold insert. rewrite E1. cbn [bind].
    pose proof (inv_prime _ _ _ _ _ _ I1) as Hp1.
    pose proof (guaranteed_ge _ _ Hp1 B1 B2 (t_size t1) B3 ltac:(lia)) as Hg.
    destruct (lookup_guaranteed K V keq hash (t_slots t1) _ _ k Hp1) as [idx El].
    { rewrite (inv_count _ _ _ _ _ _ I1). rewrite (inv_size _ _ _ _ _ _ I1) in Hg. exact Hg. }
    rewrite El. cbn [bind].
    pose proof (insert_inv_core _ _ _ keq_spec _ _ _ k v idx I1 El) as Hc.
    destruct (zget (t_slots t1) idx) as [[k' w]|].
    - destruct Hc as [-> _]. rewrite keq_refl by auto. cbn [check bind].
      eexists. split; [reflexivity|]. auto.
    - eexists. split; [reflexivity|]. auto.
  Qed.

  Lemma find_total : forall t past k d,
    inv t past ->
    (value_of keq past k <> None \/ t_size t < guaranteed (t_bucket_size t)) ->
    find keq hash t k d = Ok (match value_of keq past k with Some v => v | None => d end).
  Proof.
    intros t past k d Hinv Hor.
    assert (exists idx, lookup keq hash (t_slots t) (t_bucket_size t) k = Ok idx) as [idx El].
    { destruct Hor as [Hv|Hg].
      - destruct (value_of keq past k) as [v|] eqn:Ev; [|congruence].
        apply (inv_holds _ _ _ _ _ _ Hinv) in Ev. destruct Ev as [i Hi].
        apply (inv_placed _ _ _ _ _ _ Hinv) in Hi. destruct Hi. eauto.
      - eapply lookup_guaranteed; [apply (inv_prime _ _ _ _ _ _ Hinv)|].
        rewrite (inv_count _ _ _ _ _ _ Hinv). now rewrite (inv_size _ _ _ _ _ _ Hinv) in Hg. }
    destruct (find keq hash t k d) eqn:E.
    - f_equal. eapply find_ok; eauto.
    - exfalso. unfold find in E. rewrite El in E. cbn [bind] in E.
      pose proof (lookup_holds _ _ _ keq_spec _ _ _ _ _ _ (inv_placed _ _ _ _ _ _ Hinv)
                    (inv_holds _ _ _ _ _ _ Hinv) El) as Hlh.
      destruct (zget (t_slots t) idx) as [[k' w]|]; [|discriminate].
      destruct Hlh as [-> _]. rewrite keq_refl in E by auto. discriminate.
  Qed.

  Lemma run_loaded : forall h t past t' vs,
    inv t past -> loaded t -> run keq hash t h = Ok (t', vs) ->
    inv t' (rev h ++ past) /\ loaded t' /\ t_bucket_size t <= t_bucket_size t'.
  Proof.
    induction h; intros t past t' vs Hinv Hl H; simpl in H.
    - inversion H; subst. simpl. auto with zarith.
    - destruct a as [k v|k d|].
      + inv_bind H. destruct (insert_loaded _ _ _ _ _ Hinv Hl Hb) as [Hl' Hle].
        apply insert_inv with (past := past) in Hb; auto.
        destruct (IHh _ _ _ _ Hb Hl' H) as (I & L & B).
        simpl. rewrite <- app_assoc. split; [exact I|split; [exact L|lia]].
      + inv_bind H. inv_bind H. destruct a0 as [t1 vs1]. inversion H; subst.
        assert (Hinv' : inv t (OFind k d :: past)) by (eapply inv_ext; eauto).
        destruct (IHh _ _ _ _ Hinv' Hl Hb0) as (I & L & B).
        simpl. rewrite <- app_assoc. split; [exact I|split; [exact L|exact B]].
      + assert (Hl' : loaded (clear t)).
        { unfold loaded, clear. simpl. pose proof (primes_pos _ _ (inv_prime _ _ _ _ _ _ Hinv)). lia. }
        destruct (IHh _ _ _ _ (inv_clear _ _ _ _ _ _ Hinv) Hl' H) as (I & L & B).
        simpl. rewrite <- app_assoc. split; [exact I|split; [exact L|exact B]].
  Qed.

  Lemma create_loaded : forall cap t, @create K V cap = Ok t ->
    inv t [] /\ loaded t /\ cap <= t_bucket_size t.
  Proof.
    intros cap t H. destruct (create_inv K V keq hash cap t H) as [I Hc]. split; [exact I|split; [|exact Hc]].
    unfold loaded. rewrite (inv_size _ _ _ _ _ _ I). cbn [entries].
    pose proof (primes_pos _ _ (inv_prime _ _ _ _ _ _ I)). lia.
  Qed.

  Lemma run_from_inv : forall cap h t vs,
    run_from keq hash cap h = Ok (t, vs) ->
    inv t (rev h) /\ loaded t /\ cap <= t_bucket_size t.
  Proof.
    intros cap h t vs H. unfold run_from in H. inv_bind H.
    destruct (create_loaded _ _ Hb) as (I & L & B).
    destruct (run_loaded _ _ _ _ _ I L H) as (I' & L' & B').
    rewrite app_nil_r in I'. split; [exact I'|split; [exact L'|lia]].
  Qed.

  Lemma run_from_map : forall cap (h : list (op K V)),
    cap <= 2147483647 ->
    match run_from keq hash cap h with
    | Ok (_, outs) => outs = answers keq [] h
    | Fault f => f = Undef
    end.
  Proof.
    intros cap h Hcap. unfold run_from.
    destruct (create_total K V cap Hcap) as [t Ht]. rewrite Ht. cbn [bind].
    destruct (create_loaded _ _ Ht) as (I & _ & _).
    pose proof (run_inv _ _ _ keq_spec hash h t [] I) as H.
    destruct (run keq hash t h) as [[t' vs]|]; auto. now destruct H.
  Qed.

  Lemma insert_completes_small : forall cap h (t : table K V) outs k v,
    run_from keq hash cap h = Ok (t, outs) ->
    t_bucket_size t <> 2 -> t_bucket_size t <= 46340 ->
    exists t', insert keq hash t k v = Ok t'.
  Proof.
    intros cap h t outs k v H H2 Hb.
    destruct (run_from_inv _ _ _ _ H) as (I & L & B).
    pose proof (prime_kinds _ _ (inv_prime _ _ _ _ _ _ I)) as Hk. unfold loaded in L.
    destruct (insert_total t (rev h) k v I L H2) as (t' & E & _); [lia|lia|eauto].
  Qed.

  Lemma find_completes : forall cap h (t : table K V) outs k d,
    run_from keq hash cap h = Ok (t, outs) ->
    t_bucket_size t <> 2 -> t_bucket_size t <= 1073741827 ->
    Z.of_nat (entries keq (rev h)) < 32767 ->
    (2 * Z.of_nat (entries keq (rev h)) <= t_bucket_size t \/
     t_bucket_size t <= 46340 /\ t_bucket_size t mod 4 = 3) ->
    find keq hash t k d =
      Ok (match value_of keq (rev h) k with Some v => v | None => d end).
  Proof.
    intros cap h t outs k d H H2 Hb He Hor.
    destruct (run_from_inv _ _ _ _ H) as (I & L & B).
    apply find_total; auto. right.
    pose proof (inv_prime _ _ _ _ _ _ I) as Hp. pose proof (prime_kinds _ _ Hp) as Hk.
    pose proof (inv_size _ _ _ _ _ _ I) as Hs. unfold loaded in L.
    destruct Hor as [Hor|[Hor1 Hor2]].
    - rewrite Hs. eapply guaranteed_ge; eauto.
    - Local Transparent guaranteed. unfold guaranteed.
      destruct (Z.eqb_spec (t_bucket_size t) 2); [lia|].
      destruct (Z.leb_spec (t_bucket_size t) 32771); [|lia].
      rewrite Hor2. simpl. lia.
  Qed.
  Local Opaque guaranteed.

  Definition calm (cap : Z) (past : list (op K V)) (o : op K V) : Prop :=
    match o with
    | OInsert _ _ => Z.of_nat (entries keq past) < 32767
    | OFind k _ => value_of keq past k <> None \/
                   (Z.of_nat (entries keq past) < 32767 /\
                    2 * Z.of_nat (entries keq past) <= cap)
    | OClear => True
    end.

  Lemma run_calm : forall h cap t past,
    inv t past -> loaded t -> t_bucket_size t <> 2 -> t_bucket_size t <= 1073741827 ->
    cap <= t_bucket_size t ->
    each (calm cap) past h ->
    exists t', run keq hash t h = Ok (t', answers keq past h).
  Proof.
    induction h; intros cap t past I L B2 BM Bc He; simpl.
    - eauto.
    - destruct He as [Ho He]. destruct a as [k v|k d|]; unfold calm in Ho.
      + destruct (insert_total t past k v I L B2 BM) as (t1 & E & N2 & NM).
        { rewrite (inv_size _ _ _ _ _ _ I). exact Ho. }
        rewrite E. cbn [bind].
        destruct (insert_loaded _ _ _ _ _ I L E) as [L1 B1].
        apply (IHh cap); auto; [eapply insert_inv; eauto | lia].
      + rewrite (find_total t past k d I).
        2:{ destruct Ho as [Ho|[Ho1 Ho2]]; [auto|]. right.
            rewrite (inv_size _ _ _ _ _ _ I).
            apply (guaranteed_ge _ _ (inv_prime _ _ _ _ _ _ I) B2 BM); lia. }
        cbn [bind].
        destruct (IHh cap t (OFind k d :: past)) as [t' E]; auto.
        { eapply inv_ext; eauto. }
        rewrite E. cbn [bind]. eauto.
      + apply (IHh cap); auto; [now apply inv_clear|].
        unfold loaded, clear; cbn [t_size t_bucket_size]. pose proof (primes_pos _ _ (inv_prime _ _ _ _ _ _ I)). lia.
  Qed.

  Lemma create_bucket : forall cap t, @create K V cap = Ok t -> 3 <= cap <= 1073741827 ->
    t_bucket_size t <> 2 /\ t_bucket_size t <= 1073741827.
  Proof.
    intros cap t H Hc. destruct (create_loaded _ _ H) as (I & _ & B). split; [lia|].
    unfold create, nearest_prime_idx in H. inv_bind H. inv_bind Hb. inv_bind H.
    inversion H; subst. simpl in *.
    destruct (prime_kinds _ _ Hb1) as [?|[?|[?|?]]]; try lia. exfalso. subst a1.
    assert (a = 31).
    { pose proof (getZ_lt _ _ _ _ Hb1) as Hr. change (lenZ primes) with 32 in Hr.
      assert (X : forallb (fun i => match getZ primes i with
                    | Ok q => negb (q =? 2147483647) || (i =? 31) | _ => true end)
                   (seqZ 0 32) = true) by (vm_compute; reflexivity).
      rewrite forallb_forall in X. specialize (X a). rewrite in_seqZ, Hb1 in X.
      specialize (X ltac:(lia)). lia. }
    subst a.
    assert (forall l i, nearest_prime_from i l cap = Ok 31 -> 
              (exists p j, nth_error l j = Some p /\ cap <= p /\ i + Z.of_nat j < 31) -> False) as N.
    { induction l; intros i Hn (p & j & Hj & Hp & Hlt); simpl in Hn.
      - destruct j; discriminate.
      - destruct (Z.leb_spec cap a).
        + inversion Hn. lia.
        + destruct j; simpl in Hj.
          * inversion Hj; subst. lia.
          * apply (IHl (i + 1) Hn). exists p, j. split; auto. lia. }
    apply (N primes 0 Hb). exists 1073741827, 30%nat. split; [reflexivity|lia].
  Qed.

  Lemma run_from_calm : forall cap (h : list (op K V)),
    3 <= cap <= 1073741827 -> each (calm cap) [] h ->
    exists t, run_from keq hash cap h = Ok (t, answers keq [] h).
  Proof.
    intros cap h Hc He. unfold run_from.
    destruct (create_total K V cap) as [t Ht]; [lia|]. rewrite Ht. cbn [bind].
    destruct (create_loaded _ _ Ht) as (I & L & B).
    destruct (create_bucket _ _ Ht Hc) as [B2 BM].
    apply (run_calm h cap); auto.
  Qed.
End Total.

Lemma insert_two_buckets_refuted :
  exists cap h, int_run_from cap h = Fault Undef /\
    h = [OInsert 0 1; OInsert 2 2; OInsert 4 3] /\ cap = 2.
Proof. exists 2, [OInsert 0 1; OInsert 2 2; OInsert 4 3]. split; [vm_compute|split]; reflexivity. Qed.

Lemma find_absent_refuted :
  exists cap h t outs k d,
    int_run_from cap h = Ok (t, outs) /\
    value_of Z.eqb (rev h) k = None /\
    find Z.eqb int_hash t k d = Fault Undef.
Proof.
  destruct (int_run_from 5 [OInsert 5 1; OInsert 10 2; OInsert 15 3]) as [[t outs]|] eqn:E.
  - exists 5, [OInsert 5 1; OInsert 10 2; OInsert 15 3], t, outs, 20, 0.
    split; [exact E|]. vm_compute in E. injection E as <- <-. split; vm_compute; reflexivity.
  - vm_compute in E. discriminate.
Qed.
