(** Loops and element access. *)
From Coq Require Import ZArith List Bool Lia.
From Verif.Base Require Import Prelude Lemmas.
From Verif.Model Require Import Vector.
Import ListNotations.
Open Scope Z_scope.

Lemma lenZ_nonneg : forall A (l : list A), 0 <= lenZ l.
Proof. intros. unfold lenZ. lia. Qed.

Lemma lenZ_app : forall A (a b : list A), lenZ (a ++ b) = lenZ a + lenZ b.
Proof. intros. unfold lenZ. rewrite app_length. lia. Qed.

Lemma vget_ok : forall A (v : list A) i x d, 0 <= i < lenZ v -> nth (Z.to_nat i) v d = x -> vget v i = Ok x.
Proof.
  intros A v i x d H E. unfold vget. destruct (Z.ltb_spec i (lenZ v)); [|lia]. cbn [check bind].
  unfold getZ. destruct (Z.ltb_spec i 0); [lia|].
  rewrite (nth_error_nth' v d) by (unfold lenZ in H; lia). congruence.
Qed.

Lemma vget_nth : forall A (v : list A) i d, 0 <= i < lenZ v -> vget v i = Ok (nth (Z.to_nat i) v d).
Proof. intros. eapply vget_ok; eauto. Qed.

Lemma vset_ok : forall A (v : list A) i x, 0 <= i < lenZ v -> vset v i x = Ok (upd v (Z.to_nat i) x).
Proof.
  intros. unfold vset. destruct (Z.ltb_spec i (lenZ v)); [|lia]. cbn [check bind].
  unfold setZ. destruct (Z.ltb_spec i 0); [lia|]. unfold lenZ in *.
  destruct (Z.leb_spec (Z.of_nat (length v)) i); [lia|]. reflexivity.
Qed.

Lemma nth_upd : forall A (v : list A) n m x d, (n < length v)%nat ->
  nth m (upd v n x) d = if Nat.eqb n m then x else nth m v d.
Proof.
  induction v as [|y v IH]; intros n m x d L; [cbn in L; lia|].
  destruct n, m; cbn [upd nth Nat.eqb]; auto. apply IH. cbn in L. lia.
Qed.

Lemma lenZ_upd : forall A (v : list A) n x, lenZ (upd v n x) = lenZ v.
Proof. intros. unfold lenZ. rewrite upd_length. reflexivity. Qed.

(** Induction over a counting loop: [I k s] holds before the iteration [k]. *)
Lemma for_up_inv : forall S (I : Z -> S -> Prop) (body : S -> Z -> res S) a b s,
  a <= b -> I a s ->
  (forall k s, a <= k < b -> I k s -> exists s', body s k = Ok s' /\ I (k + 1) s') ->
  exists s', for_up a b body s = Ok s' /\ I b s'.
Proof.
  intros S I body a b s L H0 Hs. unfold for_up.
  remember (Z.to_nat (b - a)) as n eqn:E.
  revert a s L H0 Hs E. induction n as [|n IH]; intros a s L H0 Hs E.
  - exists s. split; [reflexivity|]. replace b with a by lia. assumption.
  - cbn [seqZ for_each]. destruct (Hs a s) as [s1 [E1 I1]]; [lia|assumption|].
    rewrite E1. cbn [bind]. apply IH; auto; try lia. intros k t Hk. apply Hs. lia.
Qed.

Lemma seqZ_rev : forall n a, rev (seqZ a (S n)) = (a + Z.of_nat n) :: rev (seqZ a n).
Proof.
  intros. replace (S n) with (n + 1)%nat by lia. rewrite seqZ_app, rev_app_distr. reflexivity.
Qed.

(** Induction over a loop that counts down: [I k s] holds before the iteration [k]. *)
Lemma for_down_inv : forall S (I : Z -> S -> Prop) (body : S -> Z -> res S) a b s,
  b <= a -> I a s ->
  (forall k s, b < k <= a -> I k s -> exists s', body s k = Ok s' /\ I (k - 1) s') ->
  exists s', for_down a b body s = Ok s' /\ I b s'.
Proof.
  intros S I body a b s L H0 Hs. unfold for_down.
  remember (Z.to_nat (a - b)) as n eqn:E.
  revert a s L H0 Hs E. induction n as [|n IH]; intros a s L H0 Hs E.
  - exists s. split; [reflexivity|]. replace b with a by lia. assumption.
  - rewrite seqZ_rev. cbn [for_each]. replace (b + 1 + Z.of_nat n) with a by lia.
    destruct (Hs a s) as [s1 [E1 I1]]; [lia|assumption|].
    rewrite E1. cbn [bind]. apply (IH (a - 1)); auto; try lia. intros k t Hk. apply Hs. lia.
Qed.

Lemma for_up_app : forall S (body : S -> Z -> res S) a b c s, a <= b <= c ->
  for_up a c body s = bind (for_up a b body s) (for_up b c body).
Proof.
  intros S body a b c s L. unfold for_up.
  replace (Z.to_nat (c - a)) with (Z.to_nat (b - a) + Z.to_nat (c - b))%nat by lia.
  rewrite seqZ_app. replace (a + Z.of_nat (Z.to_nat (b - a))) with b by lia.
  generalize (seqZ b (Z.to_nat (c - b))). intros tl.
  generalize (seqZ a (Z.to_nat (b - a))). intros hd. revert s.
  induction hd as [|i hd IH]; intros s; cbn [app for_each bind]; [reflexivity|].
  destruct (body s i); cbn [bind]; [apply IH | reflexivity].
Qed.

Lemma skipn_add : forall A a b (l : list A), skipn a (skipn b l) = skipn (b + a) l.
Proof.
  intros A a b. induction b; intros l; cbn [skipn Nat.add]; auto.
  destruct l; [destruct a; reflexivity|]. apply IHb.
Qed.

Lemma vrange_ok : forall A (v : list A) o l, 0 <= o -> 0 <= l -> o + l <= lenZ v ->
  vrange v o l = Ok (firstn (Z.to_nat l) (skipn (Z.to_nat o) v)).
Proof.
  intros. unfold vrange. destruct (Z.leb_spec (o + l) (lenZ v)); [|lia].
  destruct (Z.leb_spec 0 o); [|lia]. destruct (Z.leb_spec 0 l); [|lia]. reflexivity.
Qed.

Lemma Forall2_len : forall A B (R : A -> B -> Prop) a b, Forall2 R a b -> length a = length b.
Proof. intros A B R a b H. induction H; cbn [length]; congruence. Qed.
