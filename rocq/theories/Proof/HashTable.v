(** Proofs about the hash table model. *)
From Coq Require Import ZArith List Bool Lia FMapPositive.
From Verif.Base Require Import Prelude ZMap Lemmas.
From Verif.Spec Require Import MapSpec.
From Verif.Model Require Import HashTable.
Import ListNotations.
Open Scope Z_scope.

Lemma probe_fuel_val : Z.of_nat probe_fuel = 65537.
Proof. reflexivity. Qed.
Local Opaque probe_fuel.

Section Refine.
  Variables K V : Type.
  Variable keq : K -> K -> bool.
  Hypothesis keq_spec : forall a b, keq a b = true <-> a = b.
  Variable hash : K -> Z.

  Notation slots_t := (zmap (K * V)).
  Notation lookup := (@lookup K V keq hash).
  Notation probe := (@probe K V keq).
  Notation stops_at := (@stops_at K V).

  Lemma keq_refl : forall a, keq a a = true.
  Proof. intros; now apply keq_spec. Qed.

  Definition key_at (s : slots_t) (i : Z) : option K :=
    match zget s i with Some (k, _) => Some k | None => None end.

  Lemma stops_at_key : forall s s' i k,
    key_at s i = key_at s' i -> stops_at keq s i k = stops_at keq s' i k.
  Proof.
    unfold key_at, stops_at; intros. destruct (zget s i) as [[? ?]|], (zget s' i) as [[? ?]|];
      congruence.
  Qed.

  (** The probe sequence looks at keys only. *)
  Lemma probe_ext : forall fuel s s' size h k i,
    (forall j, key_at s j = key_at s' j) ->
    probe fuel s size h k i = probe fuel s' size h k i.
  Proof.
    induction fuel; intros; simpl; auto.
    destruct (check (i <? 65536) Assert); simpl; auto.
    destruct (check (in_int32 (i * i)) Undef); simpl; auto.
    destruct (probe_index h (i * i) (-1) size); simpl; auto.
    rewrite (stops_at_key s s') by auto.
    destruct (stops_at keq s' a1 k); auto.
    destruct (probe_index h (i * i) 1 size); simpl; auto.
    rewrite (stops_at_key s s') by auto.
    destruct (stops_at keq s' a2 k); auto.
  Qed.

  Lemma probe_stop : forall fuel s size h k i idx,
    probe fuel s size h k i = Ok idx -> stops_at keq s idx k = true.
  Proof.
    induction fuel; intros; simpl in H; [discriminate|].
    inv_bind H. inv_bind H. inv_bind H.
    destruct (stops_at keq s a1 k) eqn:E1; [inversion H; subst; auto|].
    inv_bind H. destruct (stops_at keq s a2 k) eqn:E2; [inversion H; subst; auto|].
    eauto.
  Qed.

  (** Filling an empty slot that the probe sequence of [k'] does not stop at
      before it reaches [i] leaves its result alone. *)
  Lemma probe_fill : forall fuel s size h k' i r idx e,
    probe fuel s size h k' i = Ok r ->
    zget s idx = None ->
    (r <> idx \/ fst e = k') ->
    probe fuel (zset s idx e) size h k' i = Ok r.
  Proof.
    induction fuel; intros s size h k' i r idx e H He Hr; simpl in *; [discriminate|].
    inv_bind H. rewrite Hb; simpl. inv_bind H. rewrite Hb0; simpl.
    inv_bind H. rewrite Hb1; simpl.
    assert (Hs : forall x, stops_at keq s x k' = false ->
                           stops_at keq (zset s idx e) x k' = false).
    { intros x Hx. unfold stops_at in *. rewrite zget_zset.
      destruct (Z.eqb_spec idx x); [subst; rewrite He in Hx; discriminate | auto]. }
    assert (Ht : stops_at keq s r k' = true -> stops_at keq (zset s idx e) r k' = true).
    { intros Hx. unfold stops_at in *. rewrite zget_zset.
      destruct (Z.eqb_spec idx r); auto.
      destruct Hr as [Hr | Hr]; [congruence|]. destruct e; simpl in *. now apply keq_spec. }
    destruct (stops_at keq s a1 k') eqn:E1.
    - inversion H; subst. now rewrite Ht.
    - rewrite Hs by auto. inv_bind H. rewrite Hb2; simpl.
      destruct (stops_at keq s a2 k') eqn:E2.
      + inversion H; subst. now rewrite Ht.
      + rewrite Hs by auto. now apply IHfuel.
  Qed.

  Lemma probe_index_range : forall h sq sign size idx,
    0 < size -> probe_index h sq sign size = Ok idx -> 0 <= idx < size.
  Proof.
    intros. unfold probe_index in H0. inv_bind H0.
    injection H0 as H0. set (sum := h + (if sign =? -1 then - sq else sq)) in *.
    pose proof (Z.rem_bound_abs sum size ltac:(lia)) as Hb1.
    destruct (Z.ltb_spec (Z.rem sum size) 0); lia.
  Qed.

  Lemma probe_range : forall fuel s size h k i idx,
    0 < size -> probe fuel s size h k i = Ok idx -> 0 <= idx < size.
  Proof.
    induction fuel; intros; simpl in H0; [discriminate|].
    inv_bind H0. inv_bind H0. inv_bind H0.
    destruct (stops_at keq s a1 k).
    { inversion H0; subst. eapply probe_index_range; eauto. }
    inv_bind H0. destruct (stops_at keq s a2 k).
    { inversion H0; subst. eapply probe_index_range; eauto. }
    eauto.
  Qed.

  (** The probe loop either finds a slot or runs into undefined behaviour. *)
  Lemma probe_undef : forall fuel s size h k i f,
    1 <= i -> (Z.of_nat fuel > 65536 - i) -> i <= 65536 ->
    (i <= 46341) ->
    probe fuel s size h k i = Fault f -> f = Undef.
  Proof.
    induction fuel; intros s size h k i f Hi Hf Hi2 Hi3 H.
    - lia.
    - cbn [HashTable.probe] in H.
      destruct (Z.ltb_spec i 65536); [simpl in H | lia].
      destruct (in_int32 (i * i)) eqn:E; simpl in H; [|congruence].
      apply in_int32_iff in E.
      assert (i <= 46340) by nia.
      destruct (probe_index h (i * i) (-1) size) eqn:P1; simpl in H.
      2:{ unfold probe_index in P1. destruct (in_int32 _) in P1; simpl in P1; congruence. }
      destruct (stops_at keq s a k); [discriminate|].
      destruct (probe_index h (i * i) 1 size) eqn:P2; simpl in H.
      2:{ unfold probe_index in P2. destruct (in_int32 _) in P2; simpl in P2; congruence. }
      destruct (stops_at keq s a0 k); [discriminate|].
      eapply (IHfuel _ _ _ _ (i + 1)); try eassumption; lia.
  Qed.

  Lemma lookup_fault : forall s size k f, lookup s size k = Fault f -> f = Undef.
  Proof.
    unfold HashTable.lookup; intros. pose proof probe_fuel_val.
    eapply probe_undef in H; auto; lia.
  Qed.

  Lemma lookup_range : forall s size k idx,
    0 < size -> lookup s size k = Ok idx -> 0 <= idx < size.
  Proof.
    unfold HashTable.lookup. generalize probe_fuel. intros n s size k idx Hs H.
    eapply probe_range; eauto.
  Qed.

  Lemma lookup_stop : forall s size k idx,
    lookup s size k = Ok idx -> stops_at keq s idx k = true.
  Proof.
    unfold HashTable.lookup. generalize probe_fuel. intros n s size k idx H.
    eapply probe_stop; eauto.
  Qed.

  Lemma lookup_fill : forall s size k r idx e,
    lookup s size k = Ok r -> zget s idx = None -> (r <> idx \/ fst e = k) ->
    lookup (zset s idx e) size k = Ok r.
  Proof.
    unfold HashTable.lookup. generalize probe_fuel. intros.
    apply probe_fill; auto.
  Qed.

  Lemma lookup_ext : forall s s' size k,
    (forall j, key_at s j = key_at s' j) -> lookup s size k = lookup s' size k.
  Proof.
    unfold HashTable.lookup. generalize probe_fuel. intros. now apply probe_ext.
  Qed.
  Opaque HashTable.lookup.

  (** Invariant of the slot array. *)
  Definition placed (s : slots_t) (size : Z) : Prop :=
    forall i k v, zget s i = Some (k, v) -> 0 <= i < size /\ lookup s size k = Ok i.

  Lemma placed_unique : forall s size i j k v w,
    placed s size -> zget s i = Some (k, v) -> zget s j = Some (k, w) -> i = j.
  Proof.
    intros. apply H in H0. apply H in H1. destruct H0, H1. congruence.
  Qed.

  Lemma placed_empty : forall size, placed zempty size.
  Proof. intros size i k v H. rewrite zget_empty in H. discriminate. Qed.

  Lemma placed_fill : forall s size k v idx,
    0 < size ->
    placed s size -> lookup s size k = Ok idx -> zget s idx = None ->
    placed (zset s idx (k, v)) size.
  Proof.
    intros s size k v idx Hs Hp Hl He i k' v' H.
    rewrite zget_zset in H. destruct (Z.eqb_spec idx i).
    - inversion H; subst. split; [exact (lookup_range _ _ _ _ Hs Hl)|].
      apply lookup_fill; [exact Hl|exact He|right; reflexivity].
    - destruct (Hp _ _ _ H) as [Hi Hk]. split; [exact Hi|].
      apply lookup_fill; [exact Hk|exact He|left; congruence].
  Qed.

  Lemma placed_update : forall s size k v w idx,
    placed s size -> zget s idx = Some (k, v) -> placed (zset s idx (k, w)) size.
  Proof.
    intros s size k v w idx Hp Hi i k' v' H.
    assert (Hk : forall j, key_at (zset s idx (k, w)) j = key_at s j).
    { intros j. unfold key_at. rewrite zget_zset. destruct (Z.eqb_spec idx j); auto.
      subst. rewrite Hi. reflexivity. }
    assert (exists v0, zget s i = Some (k', v0)) as [v0 H0].
    { specialize (Hk i). unfold key_at in Hk. rewrite H in Hk.
      destruct (zget s i) as [[? ?]|]; [|discriminate]. inversion Hk; subst. eauto. }
    destruct (Hp _ _ _ H0) as [Hr Hl]. split; [exact Hr|].
    rewrite (lookup_ext _ s); [exact Hl|exact Hk].
  Qed.

  (** What is stored. *)
  Definition holds (s : slots_t) (m : K -> option V) : Prop :=
    forall k v, m k = Some v <-> exists i, zget s i = Some (k, v).

  Lemma lookup_holds : forall s size m k idx,
    placed s size -> holds s m -> lookup s size k = Ok idx ->
    match zget s idx with
    | None => m k = None
    | Some (k', v) => k' = k /\ m k = Some v
    end.
  Proof.
    intros s size m k idx Hp Hh Hl.
    pose proof (lookup_stop _ _ _ _ Hl) as Hst. unfold stops_at in Hst.
    destruct (zget s idx) as [[k' v]|] eqn:E.
    - apply keq_spec in Hst. subst. split; auto. apply Hh. eauto.
    - destruct (m k) eqn:Em; auto. exfalso.
      apply Hh in Em. destruct Em as [i Hi]. destruct (Hp _ _ _ Hi) as [_ Hl'].
      rewrite Hl in Hl'. inversion Hl'; subst. congruence.
  Qed.

  Lemma holds_set_new : forall s m k v idx,
    holds s m -> m k = None -> zget s idx = None ->
    holds (zset s idx (k, v)) (fun k' => if keq k k' then Some v else m k').
  Proof.
    intros s m k v idx Hh Hm He k' v'. split; intros H.
    - destruct (keq k k') eqn:Ek.
      + apply keq_spec in Ek. inversion H; subst. exists idx. apply zget_zset_same.
      + apply Hh in H. destruct H as [i Hi]. exists i. rewrite zget_zset_other; auto. congruence.
    - destruct H as [i Hi]. rewrite zget_zset in Hi. destruct (Z.eqb_spec idx i).
      + inversion Hi; subst. now rewrite keq_refl.
      + assert (m k' = Some v') by (apply Hh; eauto).
        destruct (keq k k') eqn:Ek; auto. apply keq_spec in Ek. congruence.
  Qed.

  Lemma holds_update : forall s size m k v w idx,
    placed s size -> holds s m -> zget s idx = Some (k, w) ->
    holds (zset s idx (k, v)) (fun k' => if keq k k' then Some v else m k').
  Proof.
    intros s size m k v w idx Hp Hh Hi k' v'. split; intros H.
    - destruct (keq k k') eqn:Ek.
      + apply keq_spec in Ek. inversion H; subst. exists idx. apply zget_zset_same.
      + apply Hh in H. destruct H as [i H]. exists i. rewrite zget_zset_other; auto.
        intro; subst. rewrite Hi in H. inversion H; subst. rewrite keq_refl in Ek. discriminate.
    - destruct H as [i H]. rewrite zget_zset in H. destruct (Z.eqb_spec idx i).
      + inversion H; subst. now rewrite keq_refl.
      + destruct (keq k k') eqn:Ek.
        * apply keq_spec in Ek. subst. exfalso. eapply n, placed_unique; eauto.
        * apply Hh; eauto.
  Qed.

  (** Number of occupied slots. *)
  Definition occupied (s : slots_t) (i : Z) : bool :=
    match zget s i with Some _ => true | None => false end.
  Definition count (s : slots_t) (idxs : list Z) : nat := length (filter (occupied s) idxs).

  Lemma count_set_out : forall s i e idxs,
    ~ In i idxs -> count (zset s i e) idxs = count s idxs.
  Proof.
    intros. unfold count. f_equal. apply filter_ext_in. intros j Hj.
    unfold occupied. rewrite zget_zset_other; auto. intro; subst; auto.
  Qed.

  Lemma count_cons : forall s a l,
    count s (a :: l) = ((match zget s a with Some _ => 1 | None => 0 end) + count s l)%nat.
  Proof.
    intros. unfold count. simpl. unfold occupied at 1. destruct (zget s a); auto.
  Qed.

  Lemma count_app : forall s l1 l2, count s (l1 ++ l2) = (count s l1 + count s l2)%nat.
  Proof. intros. unfold count. now rewrite filter_app, app_length. Qed.

  Lemma count_set_new : forall s i e idxs,
    NoDup idxs -> In i idxs -> zget s i = None ->
    count (zset s i e) idxs = S (count s idxs).
  Proof.
    induction idxs; intros Hn Hi He; [destruct Hi|].
    inversion Hn; subst. rewrite !count_cons.
    destruct (Z.eq_dec a i).
    - subst. rewrite zget_zset_same, He. simpl. f_equal.
      now apply (count_set_out s i e idxs).
    - destruct Hi as [Hi|Hi]; [congruence|].
      rewrite zget_zset_other by congruence. rewrite IHidxs by auto. lia.
  Qed.

  Lemma count_ext : forall s s' idxs,
    (forall j, In j idxs -> key_at s j = key_at s' j) -> count s idxs = count s' idxs.
  Proof.
    intros. unfold count. f_equal. apply filter_ext_in. intros j Hj.
    specialize (H j Hj). unfold occupied, key_at in *.
    destruct (zget s j) as [[? ?]|], (zget s' j) as [[? ?]|]; congruence.
  Qed.

  Lemma count_empty : forall l, count zempty l = 0%nat.
  Proof. induction l; auto. rewrite count_cons, zget_empty. auto. Qed.

  Definition all (size : Z) : list Z := seqZ 0 (Z.to_nat size).

  Lemma in_all : forall size i, In i (all size) <-> 0 <= i < size.
  Proof. intros. unfold all. rewrite in_seqZ. lia. Qed.

  (** The entries of [old] at the indices [idxs]. *)
  Definition stored_at (old : slots_t) (idxs : list Z) (k : K) (v : V) : Prop :=
    exists i, In i idxs /\ zget old i = Some (k, v).

  Lemma rehash_ok : forall idxs old new new_size done s,
    0 < new_size ->
    NoDup idxs ->
    (forall i j k v w, zget old i = Some (k, v) -> zget old j = Some (k, w) -> i = j) ->
    (forall i, In i idxs -> ~ In i done) ->
    placed new new_size ->
    (forall k v, stored_at old done k v <-> exists i, zget new i = Some (k, v)) ->
    count new (all new_size) = count old done ->
    rehash keq hash idxs old new new_size = Ok s ->
    placed s new_size /\
    (forall k v, stored_at old (done ++ idxs) k v <-> exists i, zget s i = Some (k, v)) /\
    count s (all new_size) = count old (done ++ idxs).
  Proof.
    induction idxs; intros old new ns done s Hns Hnd Huq Hdj Hp Hst Hc H; simpl in H.
    - inversion H; subst. rewrite app_nil_r. auto.
    - inversion Hnd; subst.
      replace (done ++ a :: idxs) with ((done ++ [a]) ++ idxs) by (rewrite <- app_assoc; auto).
      destruct (zget old a) as [[k v]|] eqn:Ea.
      + inv_bind H. inv_bind H. apply check_ok in Hb0.
        destruct (zget new a0) eqn:En; [discriminate|].
        pose proof (lookup_range _ _ _ _ Hns Hb) as Hra.
        apply (IHidxs old (zset new a0 (k, v)) ns (done ++ [a]) s Hns H3 Huq); [| | | |exact H].
        * intros i Hi Hin. apply in_app_or in Hin. destruct Hin as [Hin|[Hin|[]]]; subst; auto.
          eapply Hdj; [right|]; eauto.
        * eapply placed_fill; eassumption.
        * intros k' v'. split.
          -- intros [i [Hi Hio]]. apply in_app_or in Hi. destruct Hi as [Hi|[Hi|[]]].
             ++ destruct (proj1 (Hst k' v')) as [j Hj]; [exists i; auto|].
                exists j. rewrite zget_zset_other; auto. congruence.
             ++ subst. rewrite Ea in Hio. inversion Hio; subst.
                exists a0. apply zget_zset_same.
          -- intros [j Hj]. rewrite zget_zset in Hj. destruct (Z.eqb_spec a0 j).
             ++ inversion Hj; subst. exists a. split; auto. apply in_or_app; right; left; auto.
             ++ destruct (proj2 (Hst k' v')) as [i [Hi Hio]]; [eauto|].
                exists i; split; auto. apply in_or_app; auto.
        * rewrite count_set_new; auto.
          -- rewrite count_app, count_cons, Ea. change (count old []) with 0%nat. lia.
          -- apply NoDup_seqZ.
          -- now apply in_all.
      + apply (IHidxs old new ns (done ++ [a]) s Hns H3 Huq); [|exact Hp| | |exact H].
        * intros i Hi Hin. apply in_app_or in Hin. destruct Hin as [Hin|[Hin|[]]]; subst; auto.
          eapply Hdj; [right|]; eauto.
        * intros k' v'. rewrite <- Hst. split; intros [i [Hi Hio]]; exists i; split; auto.
          -- apply in_app_or in Hi. destruct Hi as [Hi|[Hi|[]]]; auto. subst. congruence.
          -- apply in_or_app; auto.
        * rewrite count_app, count_cons, Ea. change (count old []) with 0%nat. lia.
  Qed.

  Lemma rehash_fault : forall idxs old new new_size done f,
    0 < new_size ->
    NoDup idxs ->
    (forall i j k v w, zget old i = Some (k, v) -> zget old j = Some (k, w) -> i = j) ->
    (forall i, In i idxs -> ~ In i done) ->
    placed new new_size ->
    (forall k v, stored_at old done k v <-> exists i, zget new i = Some (k, v)) ->
    rehash keq hash idxs old new new_size = Fault f -> f = Undef.
  Proof.
    induction idxs; intros old new ns done f Hns Hnd Huq Hdj Hp Hst H; simpl in H.
    - discriminate.
    - inversion Hnd; subst.
      destruct (zget old a) as [[k v]|] eqn:Ea.
      + destruct (lookup new ns k) eqn:El; simpl in H.
        2:{ inversion H; subst. eapply lookup_fault; eauto. }
        assert (En : zget new a0 = None).
        { pose proof (lookup_stop _ _ _ _ El) as Hs. unfold stops_at in Hs.
          destruct (zget new a0) as [[k' v']|] eqn:En; auto. exfalso.
          apply keq_spec in Hs; subst.
          destruct (proj2 (Hst k v')) as [i [Hi Hio]]; [eauto|].
          assert (i = a) by eauto. subst. apply (Hdj a); [left|]; auto. }
        rewrite En in H. simpl in H.
        pose proof (lookup_range _ _ _ _ Hns El) as Hra.
        apply (IHidxs old (zset new a0 (k, v)) ns (done ++ [a]) f Hns H3 Huq); [| | |exact H].
        * intros i Hi Hin. apply in_app_or in Hin. destruct Hin as [Hin|[Hin|[]]]; subst; auto.
          eapply Hdj; [right|]; eauto.
        * eapply placed_fill; eassumption.
        * intros k' v'. split.
          -- intros [i [Hi Hio]]. apply in_app_or in Hi. destruct Hi as [Hi|[Hi|[]]].
             ++ destruct (proj1 (Hst k' v')) as [j Hj]; [exists i; auto|].
                exists j. rewrite zget_zset_other; auto. congruence.
             ++ subst. rewrite Ea in Hio. inversion Hio; subst.
                exists a0. apply zget_zset_same.
          -- intros [j Hj]. rewrite zget_zset in Hj. destruct (Z.eqb_spec a0 j).
             ++ inversion Hj; subst. exists a. split; auto. apply in_or_app; right; left; auto.
             ++ destruct (proj2 (Hst k' v')) as [i [Hi Hio]]; [eauto|].
                exists i; split; auto. apply in_or_app; auto.
      + apply (IHidxs old new ns (done ++ [a]) f Hns H3 Huq); [|exact Hp| |exact H].
        * intros i Hi Hin. apply in_app_or in Hin. destruct Hin as [Hin|[Hin|[]]]; subst; auto.
          eapply Hdj; [right|]; eauto.
        * intros k' v'. rewrite <- Hst. split; intros [i [Hi Hio]]; exists i; split; auto.
          -- apply in_app_or in Hi. destruct Hi as [Hi|[Hi|[]]]; auto. subst. congruence.
          -- apply in_or_app; auto.
  Qed.

  (** Invariant of a table after the calls [past]. *)
  Record inv (t : table K V) (past : list (op K V)) : Prop := {
    inv_prime : getZ primes (t_prime_idx t) = Ok (t_bucket_size t);
    inv_placed : placed (t_slots t) (t_bucket_size t);
    inv_holds : holds (t_slots t) (value_of keq past);
    inv_count : count (t_slots t) (all (t_bucket_size t)) = entries keq past;
    inv_size : t_size t = Z.of_nat (entries keq past)
  }.

  Lemma primes_pos : forall i p, getZ primes i = Ok p -> 2 <= p.
  Proof.
    intros. apply getZ_in in H. simpl in H.
    repeat destruct H as [H|H]; try lia.
  Qed.

  Lemma inv_ext : forall t past past',
    inv t past ->
    (forall k, value_of keq past' k = value_of keq past k) ->
    entries keq past' = entries keq past ->
    inv t past'.
  Proof.
    intros t past past' [H1 H2 H3 H4 H5] Hv He. split; auto; try congruence.
    intros k v. rewrite Hv. apply H3.
  Qed.

  Lemma extend_inv : forall t past t',
    inv t past -> extend keq hash t = Ok t' ->
    inv t' past /\ t_prime_idx t' = t_prime_idx t + 1.
  Proof.
    intros t past t' [Hpr Hpl Hh Hc Hs] H. unfold extend in H.
    inv_bind H. inv_bind H. inversion H; subst; clear H. simpl. split; auto.
    pose proof (primes_pos _ _ Hb) as Hpos.
    destruct (rehash_ok (seqZ 0 (Z.to_nat (t_bucket_size t))) (t_slots t) zempty a [] a0)
      as (Hp' & Hst & Hc').
    - lia.
    - apply NoDup_seqZ.
    - intros i j k v w A B. exact (placed_unique _ _ _ _ _ _ _ Hpl A B).
    - intros ? ? [].
    - apply placed_empty.
    - intros k v; split.
      + intros [? [[] _]].
      + intros [i Hi]; rewrite zget_empty in Hi; discriminate.
    - apply count_empty.
    - exact Hb0.
    - split; simpl; auto.
      + intros k v. rewrite <- Hst. rewrite (Hh k v). unfold stored_at. simpl. split.
        * intros [i Hi]. exists i. split; auto. apply in_all. eapply Hpl; eauto.
        * intros [i [_ Hi]]. eauto.
      + rewrite Hc'. simpl. exact Hc.
  Qed.

  Lemma extend_fault : forall t past f,
    inv t past -> extend keq hash t = Fault f -> f = Undef.
  Proof.
    intros t past f [Hpr Hpl Hh Hc Hs] H. unfold extend in H.
    destruct (getZ primes (t_prime_idx t + 1)) eqn:E; simpl in H.
    2:{ unfold getZ in E. destruct (_ <? 0) in E; [congruence|].
        destruct (nth_error primes _) in E; congruence. }
    destruct (rehash keq hash _ _ _ _) eqn:R in H; simpl in H; [discriminate|].
    inversion H; subst.
    pose proof (primes_pos _ _ E) as Hpos.
    eapply rehash_fault with (done := []); [| | | | | | exact R].
    - lia.
    - apply NoDup_seqZ.
    - intros; eapply placed_unique; eauto.
    - intros ? ? [].
    - apply placed_empty.
    - intros k v; split.
      + intros [? [[] _]].
      + intros [i Hi]; rewrite zget_empty in Hi; discriminate.
  Qed.

  Lemma insert_inv_core : forall t past k v idx,
    inv t past ->
    lookup (t_slots t) (t_bucket_size t) k = Ok idx ->
    match zget (t_slots t) idx with
    | None => inv (mk_table (zset (t_slots t) idx (k, v)) (t_bucket_size t)
                     (t_prime_idx t) (t_size t + 1)) (OInsert k v :: past)
    | Some (k', _) => k' = k /\
              inv (mk_table (zset (t_slots t) idx (k', v)) (t_bucket_size t)
                     (t_prime_idx t) (t_size t)) (OInsert k v :: past)
    end.
  Proof.
    intros t past k v idx [Hpr Hpl Hh Hc Hs] Hl.
    pose proof (primes_pos _ _ Hpr) as Hpos.
    pose proof (lookup_holds _ _ _ _ _ Hpl Hh Hl) as Hlh.
    pose proof (lookup_range _ (t_bucket_size t) _ _ ltac:(lia) Hl) as Hr.
    destruct (zget (t_slots t) idx) as [[k' w]|] eqn:E.
    - destruct Hlh as [-> Hm]. split; auto. split; simpl; auto.
      + eapply placed_update; eauto.
      + intros k'' v''. eapply holds_update; eauto.
      + rewrite Hm. rewrite <- Hc. apply count_ext. intros j _. unfold key_at.
        rewrite zget_zset. destruct (Z.eqb_spec idx j); auto. subst. now rewrite E.
      + now rewrite Hm.
    - split; simpl; auto.
      + eapply placed_fill; eauto. lia.
      + intros k'' v''. eapply holds_set_new; eauto.
      + rewrite Hlh. rewrite count_set_new; auto.
        * apply NoDup_seqZ.
        * now apply in_all.
      + rewrite Hlh. lia.
  Qed.

  Lemma insert_inv : forall t past k v t',
    inv t past -> insert keq hash t k v = Ok t' -> inv t' (OInsert k v :: past).
  Proof.
    intros t past k v t' Hinv H. unfold insert in H. inv_bind H. inv_bind H.
    assert (Ha : inv a past).
    { destruct (t_bucket_size t <? 2 * t_size t).
      - eapply extend_inv; eauto.
      - inversion Hb; subst; auto. }
    pose proof (insert_inv_core a past k v a0 Ha Hb0) as Hc.
    destruct (zget (t_slots a) a0) as [[k' w]|].
    - destruct Hc as [-> Hc]. rewrite keq_refl in H. simpl in H. inversion H; subst; auto.
    - inversion H; subst; auto.
  Qed.

  Lemma insert_fault : forall t past k v f,
    inv t past -> insert keq hash t k v = Fault f -> f = Undef.
  Proof.
    intros t past k v f Hinv H. unfold insert in H.
    destruct (if t_bucket_size t <? 2 * t_size t then extend keq hash t else Ok t) eqn:E;
      simpl in H.
    2:{ inversion H; subst. destruct (_ <? _) in E; [|discriminate].
        eapply extend_fault; eauto. }
    assert (Ha : inv a past).
    { destruct (t_bucket_size t <? 2 * t_size t).
      - eapply extend_inv; eauto.
      - inversion E; subst; auto. }
    destruct (lookup (t_slots a) (t_bucket_size a) k) eqn:El; simpl in H.
    2:{ inversion H; subst. eapply lookup_fault; eauto. }
    pose proof (insert_inv_core a past k v a0 Ha El) as Hc.
    destruct (zget (t_slots a) a0) as [[k' w]|].
    - destruct Hc as [-> Hc]. rewrite keq_refl in H. discriminate.
    - discriminate.
  Qed.

  Lemma find_ok : forall t past k d v,
    inv t past -> find keq hash t k d = Ok v ->
    v = match value_of keq past k with Some x => x | None => d end.
  Proof.
    intros t past k d v [Hpr Hpl Hh Hc Hs] H. unfold find in H. inv_bind H.
    pose proof (lookup_holds _ _ _ _ _ Hpl Hh Hb) as Hlh.
    destruct (zget (t_slots t) a) as [[k' w]|].
    - inv_bind H. inversion H; subst. destruct Hlh as [_ ->]. reflexivity.
    - inversion H; subst. rewrite Hlh. reflexivity.
  Qed.

  Lemma find_fault : forall t past k d f,
    inv t past -> find keq hash t k d = Fault f -> f = Undef.
  Proof.
    intros t past k d f [Hpr Hpl Hh Hc Hs] H. unfold find in H.
    destruct (lookup (t_slots t) (t_bucket_size t) k) eqn:El; simpl in H.
    2:{ inversion H; subst. eapply lookup_fault; eauto. }
    pose proof (lookup_holds _ _ _ _ _ Hpl Hh El) as Hlh.
    destruct (zget (t_slots t) a) as [[k' w]|]; [|discriminate].
    destruct Hlh as [-> _]. rewrite keq_refl in H. discriminate.
  Qed.

  Lemma inv_clear : forall t past, inv t past -> inv (clear t) (OClear :: past).
  Proof.
    intros t past [Hpr Hpl Hh Hc Hs]. split; simpl; auto.
    - apply placed_empty.
    - intros k v. split; [discriminate|]. intros [i Hi]. rewrite zget_empty in Hi. discriminate.
    - apply count_empty.
  Qed.

  Lemma run_inv : forall h t past,
    inv t past ->
    match run keq hash t h with
    | Ok (t', vs) => vs = answers keq past h /\ inv t' (rev h ++ past)
    | Fault f => f = Undef
    end.
  Proof.
    induction h; intros t past Hinv; simpl; auto.
    destruct a as [k v|k d|].
    - destruct (insert keq hash t k v) eqn:E; simpl.
      + specialize (IHh _ _ (insert_inv _ _ _ _ _ Hinv E)).
        destruct (run keq hash a h) as [[t' vs]|]; auto.
        rewrite <- app_assoc. exact IHh.
      + eapply insert_fault; eauto.
    - destruct (find keq hash t k d) eqn:E; simpl.
      + assert (Hinv' : inv t (OFind k d :: past)) by (eapply inv_ext; eauto).
        specialize (IHh _ _ Hinv').
        destruct (run keq hash t h) as [[t' vs]|]; simpl; auto.
        destruct IHh as [-> IHh]. rewrite <- app_assoc. simpl. split; auto.
        f_equal. eapply find_ok; eauto.
      + eapply find_fault; eauto.
    - specialize (IHh _ _ (inv_clear _ _ Hinv)).
      destruct (run keq hash (clear t) h) as [[t' vs]|]; auto.
      rewrite <- app_assoc. exact IHh.
  Qed.

  Lemma nearest_ok : forall l i num idx,
    nearest_prime_from i l num = Ok idx ->
    exists p, nth_error l (Z.to_nat (idx - i)) = Some p /\ num <= p /\ i <= idx.
  Proof.
    induction l; simpl; intros; [discriminate|].
    destruct (Z.leb_spec num a).
    - inversion H; subst. exists a. rewrite Z.sub_diag. simpl. auto with zarith.
    - apply IHl in H. destruct H as (p & H1 & H2 & H3). exists p.
      replace (Z.to_nat (idx - i)) with (S (Z.to_nat (idx - (i + 1)))) by lia.
      simpl. split; auto. lia.
  Qed.

  Lemma create_inv : forall cap t, create cap = Ok t -> inv t [] /\ cap <= t_bucket_size t.
  Proof.
    intros. unfold create in H. inv_bind H. inv_bind H. inversion H; subst; clear H.
    unfold nearest_prime_idx in Hb. inv_bind Hb.
    apply nearest_ok in Hb. destruct Hb as (p & H1 & H2 & H3).
    rewrite Z.sub_0_r in H1.
    split; [|simpl].
    - split; simpl; auto.
      + apply placed_empty.
      + intros k v. split; [discriminate|]. intros [i Hi]. rewrite zget_empty in Hi. discriminate.
      + apply count_empty.
    - apply getZ_ok in Hb0. destruct Hb0. rewrite H1 in H0. congruence.
  Qed.

  Lemma create_total : forall cap, cap <= 2147483647 -> exists t, @create K V cap = Ok t.
  Proof.
    intros. unfold create, nearest_prime_idx.
    pose proof H as H'. apply Z.leb_le in H'. rewrite H'. cbn [check bind].
    assert (forall l i, 0 <= i ->
      (exists p, In p l /\ cap <= p) ->
      exists idx, nearest_prime_from i l cap = Ok idx /\ i <= idx < i + lenZ l) as Hx.
    { induction l; intros i Hi [p [Hp Hc]]; [destruct Hp|]. simpl.
      destruct (Z.leb_spec cap a).
      - exists i. split; auto. unfold lenZ. simpl length. lia.
      - destruct Hp; [subst; lia|].
        destruct (IHl (i + 1)) as [idx [E Hr]]; [lia|eauto|].
        exists idx; split; auto. unfold lenZ in *. simpl length. lia. }
    destruct (Hx primes 0 ltac:(lia)) as [idx [E Hr]].
    { exists 2147483647. split; [|lia]. simpl. tauto. }
    rewrite E. cbn [bind].
    destruct (getZ_total _ primes idx) as [p Hp]; [lia|]. rewrite Hp. cbn [bind]. eauto.
  Qed.
End Refine.
