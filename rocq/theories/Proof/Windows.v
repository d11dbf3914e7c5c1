(** Windows one element apart. *)
From Coq Require Import ZArith List Bool Lia.
From Verif.Base Require Import Prelude Lemmas.
From Verif.Spec Require Import AudioSpec AmSpec.
From Verif.Proof Require Import Loop.
Import ListNotations.

Lemma num_windows_1 : forall k n, num_windows (S k) 1 n = (n - k)%nat.
Proof.
  intros k n. unfold num_windows. destruct (Nat.ltb_spec n (S k)); [lia|].
  rewrite Nat.div_1_r. lia.
Qed.

Lemma windows_1 : forall A k (s : list A),
  windows (S k) 1 s = map (fun i => firstn (S k) (skipn i s)) (seq 0 (length s - k)).
Proof.
  intros. unfold windows. rewrite num_windows_1. apply map_ext. intros i. unfold window.
  rewrite Nat.mul_1_r. reflexivity.
Qed.

Lemma windows_1_length : forall A k (s : list A), length (windows (S k) 1 s) = (length s - k)%nat.
Proof. intros. rewrite windows_1, map_length, seq_length. reflexivity. Qed.

Lemma windows_1_in : forall A k (s w : list A), In w (windows (S k) 1 s) <->
  exists i, (i < length s - k)%nat /\ w = firstn (S k) (skipn i s).
Proof.
  intros. rewrite windows_1, in_map_iff. split.
  - intros [i [<- I]]. apply in_seq in I. exists i. split; [lia|reflexivity].
  - intros [i [I ->]]. exists i. split; [reflexivity|]. apply in_seq. lia.
Qed.

Lemma windows_1_in_length : forall A k (s w : list A), In w (windows (S k) 1 s) -> length w = S k.
Proof.
  intros A k s w I. apply windows_1_in in I. destruct I as [i [I ->]].
  rewrite firstn_length, skipn_length. lia.
Qed.

Lemma windows_1_split : forall A k a (s : list A), (a + k <= length s)%nat ->
  windows (S k) 1 s = windows (S k) 1 (firstn (a + k) s) ++ windows (S k) 1 (skipn a s).
Proof.
  intros A k a s H. rewrite !windows_1, firstn_length, skipn_length.
  replace (length s - k)%nat with (a + (length s - a - k))%nat by lia.
  rewrite seq_app, map_app. f_equal.
  - replace (Nat.min (a + k) (length s) - k)%nat with a by lia.
    apply map_ext_in. intros i I. apply in_seq in I.
    rewrite skipn_firstn_comm, firstn_firstn. f_equal. lia.
  - assert (S : forall n a b, seq (a + b) n = map (fun i => (a + i)%nat) (seq b n)).
    { clear. induction n; intros; cbn [seq map]; auto. f_equal.
      replace (S (a + b)) with (a + S b)%nat by lia. apply IHn. }
    replace (0 + a)%nat with (a + 0)%nat by lia. rewrite S, map_map. apply map_ext. intros i.
    rewrite skipn_add. reflexivity.
Qed.

Lemma windows_1_one : forall A k (s : list A), length s = S k -> windows (S k) 1 s = [s].
Proof.
  intros A k s H. rewrite windows_1. replace (length s - k)%nat with 1%nat by lia. cbn [seq map skipn].
  rewrite firstn_all2 by lia. reflexivity.
Qed.

Lemma windows_1_short : forall A k (s : list A), (length s <= k)%nat -> windows (S k) 1 s = [].
Proof. intros A k s H. rewrite windows_1. replace (length s - k)%nat with 0%nat by lia. reflexivity. Qed.

Lemma uniform_app : forall F c (a b : list (list F)), uniform c (a ++ b) <-> uniform c a /\ uniform c b.
Proof. intros. unfold uniform. apply Forall_app. Qed.

Lemma uniform_firstn : forall F c n (a : list (list F)), uniform c a -> uniform c (firstn n a).
Proof. intros F c n a H. rewrite <- (firstn_skipn n a) in H. apply uniform_app in H. tauto. Qed.

Lemma uniform_skipn : forall F c n (a : list (list F)), uniform c a -> uniform c (skipn n a).
Proof. intros F c n a H. rewrite <- (firstn_skipn n a) in H. apply uniform_app in H. tauto. Qed.
