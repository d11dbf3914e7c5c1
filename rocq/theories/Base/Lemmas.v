(** Lemmas about the common vocabulary. *)
From Coq Require Import ZArith List Bool Lia.
From Verif.Base Require Import Prelude.
Import ListNotations.
Open Scope Z_scope.

Lemma bind_ok : forall A B (m : res A) (k : A -> res B) b,
  bind m k = Ok b -> exists a, m = Ok a /\ k a = Ok b.
Proof. intros A B [a|f] k b H; simpl in H; [eauto | discriminate]. Qed.

Lemma check_ok : forall b f u, check b f = Ok u -> b = true.
Proof. intros [|] f u H; [reflexivity | discriminate]. Qed.

Ltac inv_bind H :=
  let a := fresh "a" in
  let H1 := fresh "Hb" in
  apply bind_ok in H; destruct H as [a [H1 H]].

Lemma getZ_ok : forall A (l : list A) i x,
  getZ l i = Ok x <-> 0 <= i /\ nth_error l (Z.to_nat i) = Some x.
Proof.
  intros. unfold getZ. destruct (Z.ltb_spec i 0).
  - split; [discriminate | lia].
  - destruct (nth_error l (Z.to_nat i)) eqn:E; split; intros.
    + inversion H0; subst; split; [lia | reflexivity].
    + destruct H0 as [_ H0]. inversion H0; subst; reflexivity.
    + discriminate.
    + destruct H0; discriminate.
Qed.

Lemma getZ_lt : forall A (l : list A) i x, getZ l i = Ok x -> 0 <= i < lenZ l.
Proof.
  intros. apply getZ_ok in H. destruct H as [H1 H2].
  assert (nth_error l (Z.to_nat i) <> None) by congruence.
  apply nth_error_Some in H. unfold lenZ. lia.
Qed.

Lemma getZ_in : forall A (l : list A) i x, getZ l i = Ok x -> In x l.
Proof. intros. apply getZ_ok in H. destruct H. eapply nth_error_In; eauto. Qed.

Lemma getZ_total : forall A (l : list A) i, 0 <= i < lenZ l -> exists x, getZ l i = Ok x.
Proof.
  intros. unfold getZ. destruct (Z.ltb_spec i 0); [lia|].
  destruct (nth_error l (Z.to_nat i)) eqn:E; [eauto|].
  apply nth_error_None in E. unfold lenZ in H. lia.
Qed.

Lemma upd_length : forall A (l : list A) n x, length (upd l n x) = length l.
Proof. induction l; destruct n; simpl; intros; auto. Qed.

Lemma nth_error_upd : forall A (l : list A) n m x,
  nth_error (upd l n x) m =
  if Nat.eqb n m then (if Nat.ltb m (length l) then Some x else None) else nth_error l m.
Proof.
  induction l; destruct n, m; simpl; intros; auto.
  - destruct (Nat.eqb n m); auto.
  - rewrite IHl. reflexivity.
Qed.

Lemma seqZ_length : forall n a, length (seqZ a n) = n.
Proof. induction n; simpl; auto. Qed.

Lemma in_seqZ : forall n a x, In x (seqZ a n) <-> a <= x < a + Z.of_nat n.
Proof.
  induction n; intros.
  - simpl. lia.
  - cbn [seqZ In]. rewrite IHn. lia.
Qed.

Lemma NoDup_seqZ : forall n a, NoDup (seqZ a n).
Proof.
  induction n; intros; simpl; constructor; auto.
  rewrite in_seqZ. lia.
Qed.

Lemma seqZ_app : forall n m a, seqZ a (n + m) = seqZ a n ++ seqZ (a + Z.of_nat n) m.
Proof.
  induction n; intros.
  - simpl. f_equal. lia.
  - cbn [seqZ Nat.add app]. rewrite IHn. do 3 f_equal. lia.
Qed.

Lemma in_int32_iff : forall z, in_int32 z = true <-> -2147483648 <= z <= 2147483647.
Proof.
  intros. unfold in_int32, int_min, int_max.
  rewrite andb_true_iff, !Z.leb_le. lia.
Qed.

Lemma filter_length_le : forall A (f : A -> bool) l, (length (filter f l) <= length l)%nat.
Proof. induction l; simpl; auto. destruct (f a); simpl; lia. Qed.
