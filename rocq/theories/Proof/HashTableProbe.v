(** Completion of the probe loop of the hash table: enough distinct slots are
    visited before the squares leave the range of [int]. *)
From Coq Require Import ZArith List Bool Lia.
From Verif.Base Require Import Prelude ZMap Lemmas.
From Verif.Spec Require Import MapSpec.
From Verif.Model Require Import HashTable.
From Verif.Proof Require Import HashTable NumberTheory.
Import ListNotations.
Open Scope Z_scope.

Definition big_fuel : nat := Z.to_nat 32767.
Lemma big_fuel_val : Z.of_nat big_fuel = 32767.
Proof. reflexivity. Qed.

Section Complete.
  Variables K V : Type.
  Variable keq : K -> K -> bool.
  Variable hash : K -> Z.

  Notation slots_t := (zmap (K * V)).

  Lemma rem_mod : forall a p, 0 < p ->
    (if Z.rem a p <? 0 then Z.rem a p + p else Z.rem a p) = a mod p.
  Proof.
    intros a p Hp. pose proof (Z.quot_rem' a p) as E.
    pose proof (Z.rem_bound_abs a p ltac:(lia)) as Hb.
    destruct (Z.ltb_spec (Z.rem a p) 0).
    - apply Z.mod_unique with (q := Z.quot a p - 1); lia.
    - apply Z.mod_unique with (q := Z.quot a p); lia.
  Qed.

  Lemma probe_index_val : forall h sq sign p,
    0 < p -> in_int32 (h + (if sign =? -1 then - sq else sq)) = true ->
    probe_index h sq sign p = Ok ((h + (if sign =? -1 then - sq else sq)) mod p).
  Proof.
    intros. unfold probe_index. rewrite H0. cbn [check bind]. f_equal. now apply rem_mod.
  Qed.

  (** If some slot visited with a counter in [i..lim] ends the search, the
      search succeeds. *)
  Lemma probe_reaches : forall fuel (s : slots_t) p h k i lim j sgn,
    0 < p -> - p < h < p -> 1 <= i <= j -> j <= lim -> lim < 65536 ->
    p - 1 + lim * lim <= int_max ->
    lim - i < Z.of_nat fuel ->
    (sgn = -1 \/ sgn = 1) ->
    stops_at keq s ((h + sgn * (j * j)) mod p) k = true ->
    exists idx, probe keq fuel s p h k i = Ok idx.
  Proof.
    induction fuel; intros s p h k i lim j sgn Hp Hh Hi Hj Hl Hm Hf Hs Hst.
    - lia.
    - unfold int_max in Hm.
      assert (Hii : i * i <= lim * lim) by nia.
      cbn [probe].
      destruct (Z.ltb_spec i 65536); [|lia]. cbn [check bind].
      assert (in_int32 (i * i) = true) as -> by (apply in_int32_iff; nia).
      cbn [check bind].
      rewrite probe_index_val; [|assumption|apply in_int32_iff; simpl; nia].
      cbn [bind]. change (-1 =? -1) with true. cbv iota.
      destruct (stops_at keq s ((h + - (i * i)) mod p) k) eqn:E1; [eauto|].
      rewrite probe_index_val; [|assumption|apply in_int32_iff; simpl; nia].
      cbn [bind]. change (1 =? -1) with false. cbv iota.
      destruct (stops_at keq s ((h + i * i) mod p) k) eqn:E2; [eauto|].
      destruct (Z.eq_dec i j) as [->|Hne].
      + exfalso. destruct Hs; subst sgn.
        * replace (h + -1 * (j * j)) with (h + - (j * j)) in Hst by lia. congruence.
        * replace (h + 1 * (j * j)) with (h + j * j) in Hst by lia. congruence.
      + eapply (IHfuel s p h k (i + 1) lim j sgn); eauto; lia.
  Qed.

  Lemma pigeon : forall (s : slots_t) (idxs : list Z) (universe : list Z),
    NoDup idxs -> (forall i, In i idxs -> In i universe) ->
    (count K V s universe < length idxs)%nat ->
    exists i, In i idxs /\ zget s i = None.
  Proof.
    intros s idxs universe Hn Hi Hc.
    destruct (existsb (fun i => negb (occupied K V s i)) idxs) eqn:E.
    - apply existsb_exists in E. destruct E as [i [Hin Ho]]. exists i. split; auto.
      unfold occupied in Ho. destruct (zget s i); [discriminate | auto].
    - exfalso.
      assert (forall i, In i idxs -> occupied K V s i = true) as Ho.
      { intros i Hin. destruct (occupied K V s i) eqn:Eo; auto.
        assert (existsb (fun i => negb (occupied K V s i)) idxs = true); [|congruence].
        apply existsb_exists. exists i. rewrite Eo. auto. }
      assert (length idxs <= count K V s universe)%nat; [|lia].
      unfold count. apply NoDup_incl_length; auto.
      intros i Hin. apply filter_In. auto.
  Qed.

  (** [offs] is a list of distinct offsets reached with counters 1..lim. *)
  Definition reached (p lim : Z) (offs : list Z) : Prop :=
    NoDup offs /\
    forall o, In o offs -> exists j sgn,
      1 <= j <= lim /\ (sgn = -1 \/ sgn = 1) /\ o = (sgn * (j * j)) mod p.

  Lemma lookup_complete : forall (s : slots_t) p lim offs k,
    0 < p -> reached p lim offs -> lim < 65536 -> p - 1 + lim * lim <= int_max ->
    (count K V s (all p) < length offs)%nat ->
    exists idx, lookup keq hash s p k = Ok idx.
  Proof.
    intros s p lim offs k Hp [Hn Hr] Hl Hm Hc.
    set (h := Z.rem (hash k) p).
    assert (Hh : - p < h < p).
    { unfold h. pose proof (Z.rem_bound_abs (hash k) p ltac:(lia)). lia. }
    destruct (pigeon s (map (fun o => (h + o) mod p) offs) (all p)) as [i [Hi He]].
    - assert (forall o, In o offs -> 0 <= o < p).
      { intros o Ho. destruct (Hr o Ho) as (j & sgn & _ & _ & ->). apply Z.mod_pos_bound; auto. }
      assert (Hinj : forall a b, In a offs -> In b offs ->
                (h + a) mod p = (h + b) mod p -> a = b).
      { intros a b Ha Hb E. apply H in Ha. apply H in Hb.
        assert (E' : (a - b) mod p = 0).
        { replace (a - b) with ((h + a) - (h + b)) by lia.
          rewrite Zminus_mod, E, Z.sub_diag. apply Z.mod_0_l. lia. }
        apply Z.mod_divide in E'; [|lia]. destruct E' as [q Hq].
        assert (q < 1) by nia. assert (-1 < q) by nia. assert (q = 0) by lia. subst q. lia. }
      clear Hc Hr. induction offs; simpl; constructor.
      + rewrite in_map_iff. intros [b [Eb Hb]]. inversion Hn; subst.
        assert (b = a) by (apply Hinj; simpl; auto). subst. contradiction.
      + inversion Hn; subst. apply IHoffs; auto; intros; [apply H|apply Hinj]; simpl; auto.
    - intros i Hi. apply in_map_iff in Hi. destruct Hi as [o [<- _]].
      apply in_all. apply Z.mod_pos_bound; auto.
    - now rewrite map_length.
    - apply in_map_iff in Hi. destruct Hi as [o [Eo Ho]].
      destruct (Hr o Ho) as (j & sgn & Hj & Hs & ->).
      rewrite Zplus_mod_idemp_r in Eo.
      assert (exists idx, probe keq probe_fuel s p h k 1 = Ok idx) as [idx E].
      { pose proof probe_fuel_val.
        apply (probe_reaches _ s p h k 1 lim j sgn); auto; try lia.
        rewrite Eo. unfold stops_at. now rewrite He. }
      exists idx. exact E.
  Qed.
End Complete.

(** ** What is reached for the bucket counts of the table *)

Lemma minus_reached : forall p lim o,
  In o (minus_squares p (Z.to_nat lim)) ->
  exists j sgn, 1 <= j <= lim /\ (sgn = -1 \/ sgn = 1) /\ o = (sgn * (j * j)) mod p.
Proof.
  intros p lim o H. unfold minus_squares in H. apply in_map_iff in H.
  destruct H as [j [<- Hj]]. apply in_seqZ in Hj. exists j, (-1).
  split; [lia|]. split; [auto|]. f_equal; lia.
Qed.

Lemma plus_reached : forall p lim o,
  In o (plus_squares p (Z.to_nat lim)) ->
  exists j sgn, 1 <= j <= lim /\ (sgn = -1 \/ sgn = 1) /\ o = (sgn * (j * j)) mod p.
Proof.
  intros p lim o H. unfold plus_squares in H. apply in_map_iff in H.
  destruct H as [j [<- Hj]]. apply in_seqZ in Hj. exists j, 1.
  split; [lia|]. split; [auto|]. f_equal; lia.
Qed.

Lemma home_reached : forall p, 0 < p ->
  exists j sgn, 1 <= j <= p /\ (sgn = -1 \/ sgn = 1) /\ 0 = (sgn * (j * j)) mod p.
Proof.
  intros. exists p, 1. split; [lia|]. split; auto.
  rewrite Z.mul_1_l. symmetry. apply Z.mod_mul. lia.
Qed.

Lemma half_odd : forall p, p mod 2 = 1 -> 2 * ((p - 1) / 2) = p - 1.
Proof.
  intros p Ho. pose proof (Z.div_mod (p - 1) 2 ltac:(lia)).
  assert ((p - 1) mod 2 = 0); [|lia].
  rewrite Zminus_mod, Ho. reflexivity.
Qed.

Lemma small_reached : forall p, In p small_primes ->
  exists offs, reached p p offs /\ 2 * Z.of_nat (length offs) = p + 1.
Proof.
  intros p Hp. pose proof (small_bounds p Hp) as [Hb Ho]. pose proof (small_prime p Hp) as Hpr.
  pose proof (half_odd p Ho) as Hd.
  exists (0 :: minus_squares p (half p)). split; [split|].
  - constructor.
    + apply home_not_minus; auto. unfold half. lia.
    + apply minus_squares_nodup; auto. unfold half. lia.
  - intros o [Ho'|Ho'].
    + subst. apply home_reached. lia.
    + apply minus_reached in Ho'. destruct Ho' as (j & sgn & Hj & Hs & ->).
      exists j, sgn. split; [lia|auto].
  - cbn [length]. rewrite minus_squares_length. unfold half. lia.
Qed.

Lemma small43_reached : forall p, In p small_primes -> p mod 4 = 3 ->
  exists offs, reached p p offs /\ Z.of_nat (length offs) = p.
Proof.
  intros p Hp H4. pose proof (small_bounds p Hp) as [Hb Ho]. pose proof (small_prime p Hp) as Hpr.
  pose proof (half_odd p Ho) as Hd.
  assert (Hh : 2 * Z.of_nat (half p) < p) by (unfold half; lia).
  exists (0 :: minus_squares p (half p) ++ plus_squares p (half p)). split; [split|].
  - constructor.
    + rewrite in_app_iff. intros [H|H]; revert H;
        [apply home_not_minus | apply home_not_plus]; auto.
    + apply NoDup_app_intro.
      * apply minus_squares_nodup; auto.
      * apply plus_squares_nodup; auto.
      * intros x. now apply minus_plus_disjoint.
  - intros o [Ho'|Ho'].
    + subst. apply home_reached. lia.
    + apply in_app_or in Ho'.
      assert (exists j sgn, 1 <= j <= (p - 1) / 2 /\ (sgn = -1 \/ sgn = 1) /\
                o = (sgn * (j * j)) mod p) as (j & sgn & Hj & Hs & ->).
      { destruct Ho'; [now apply minus_reached | now apply plus_reached]. }
      exists j, sgn. split; [lia|auto].
  - cbn [length]. rewrite app_length, minus_squares_length, plus_squares_length.
    unfold half. lia.
Qed.

Lemma large_reached : forall p, In p large_primes ->
  exists offs, reached p 32767 offs /\ Z.of_nat (length offs) = 32767.
Proof.
  intros p Hp. pose proof (large_bounds p Hp) as [Hb Ho]. pose proof (large_prime p Hp) as Hpr.
  pose proof big_fuel_val.
  exists (minus_squares p big_fuel). split; [split|].
  - apply minus_squares_nodup; auto. lia.
  - intros o Ho'. exact (minus_reached p 32767 o Ho').
  - rewrite minus_squares_length. exact big_fuel_val.
Qed.

(** Every bucket count except 2 and 2147483647 is covered. *)
Lemma primes_cover : forall i p, getZ primes i = Ok p ->
  p = 2 \/ In p small_primes \/ In p large_primes \/ p = 2147483647.
Proof.
  intros i p H. apply getZ_in in H. unfold primes in H.
  cbn [In] in H. unfold small_primes, large_primes. cbn [In].
  repeat (destruct H as [H|H]; [clear - H; lia|]). destruct H.
Qed.

(** Slots certainly visited by a search, by bucket count. *)
Definition guaranteed (p : Z) : Z :=
  if p =? 2 then 0
  else if p <=? 32771 then (if p mod 4 =? 3 then p else (p + 1) / 2)
  else if p <=? 1073741827 then 32767 else 0.

Lemma lookup_guaranteed : forall K V keq hash (s : zmap (K * V)) i p k,
  getZ primes i = Ok p ->
  Z.of_nat (count K V s (all p)) < guaranteed p ->
  exists idx, lookup keq hash s p k = Ok idx.
Proof.
  intros K V keq hash s i p k Hi Hc. apply primes_cover in Hi.
  destruct Hi as [->|[Hi|[Hi| ->]]].
  - unfold guaranteed in Hc. simpl in Hc. lia.
  - pose proof (small_bounds p Hi) as [Hb Ho]. unfold guaranteed in Hc.
    destruct (Z.eqb_spec p 2); [lia|]. destruct (Z.leb_spec p 32771); [|lia].
    destruct (Z.eqb_spec (p mod 4) 3).
    + destruct (small43_reached p Hi e) as [offs [Hr Hl]].
      eapply lookup_complete with (lim := p) (offs := offs); eauto; unfold int_max; try nia; lia.
    + destruct (small_reached p Hi) as [offs [Hr Hl]].
      assert ((p + 1) / 2 = Z.of_nat (length offs)) as E.
      { rewrite <- Hl. rewrite Z.mul_comm. apply Z.div_mul. lia. }
      eapply lookup_complete with (lim := p) (offs := offs); eauto; unfold int_max; try nia; lia.
  - pose proof (large_bounds p Hi) as [Hb Ho]. unfold guaranteed in Hc.
    destruct (Z.eqb_spec p 2); [lia|]. destruct (Z.leb_spec p 32771); [lia|].
    destruct (Z.leb_spec p 1073741827); [|lia].
    destruct (large_reached p Hi) as [offs [Hr Hl]].
    eapply lookup_complete with (lim := 32767) (offs := offs); eauto; unfold int_max; try lia.
  - unfold guaranteed in Hc. simpl in Hc. lia.
Qed.
