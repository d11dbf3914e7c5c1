(** Operations on parts of vectors do what Spec/ViewSpec.v says. *)
From Coq Require Import ZArith List Bool Lia.
From Verif.Base Require Import Prelude Lemmas.
From Verif.Model Require Import Arith Vector Views.
From Verif.Spec Require Import ViewSpec.
From Verif.Proof Require Loop.
Import ListNotations.
Open Scope Z_scope.

(** ** Lists *)

Definition splice {A} (b : list A) (o : nat) (l : list A) : list A := firstn o b ++ l ++ skipn (o + length l) b.

Lemma nth_skip A n : forall (l : list A) i, nth_error (skipn n l) i = nth_error l (n + i).
Proof. induction n; intros [|x l] i; cbn; auto. now destruct i. Qed.

Lemma nth_first A n : forall (l : list A) i, (i < n)%nat -> nth_error (firstn n l) i = nth_error l i.
Proof. induction n; intros [|x l] [|i] H; cbn; auto; try lia. apply IHn. lia. Qed.

Lemma splice_len A (b : list A) o l : (o + length l <= length b)%nat -> length (splice b o l) = length b.
Proof. intros H. unfold splice. rewrite !app_length, firstn_length, skipn_length. lia. Qed.

Lemma splice_nth A (b : list A) o l k : (o + length l <= length b)%nat ->
  nth_error (splice b o l) k = if (o <=? k)%nat && (k <? o + length l)%nat then nth_error l (k - o) else nth_error b k.
Proof.
  intros H. unfold splice. assert (L : length (firstn o b) = o) by (rewrite firstn_length; lia).
  destruct (Nat.leb_spec o k) as [G|G]; cbn [andb].
  - rewrite nth_error_app2, L by lia. destruct (Nat.ltb_spec k (o + length l)).
    + rewrite nth_error_app1 by lia. reflexivity.
    + rewrite nth_error_app2 by lia. rewrite nth_skip. f_equal. lia.
  - rewrite nth_error_app1 by lia. apply nth_first. exact G.
Qed.

Lemma list_ext A : forall (l l' : list A), (forall k, nth_error l k = nth_error l' k) -> l = l'.
Proof.
  induction l as [|x l IH]; intros [|y l'] H; auto; try (specialize (H 0%nat); discriminate).
  assert (H0 := H 0%nat). cbn in H0. injection H0 as ->. f_equal. apply IH. intros k. exact (H (S k)).
Qed.

Lemma splice_upd A (b : list A) o l x : (o + length l < length b)%nat ->
  upd (splice b o l) (o + length l) x = splice b o (l ++ [x]).
Proof.
  intros H. apply list_ext. intros k. rewrite nth_error_upd, !splice_nth, splice_len; rewrite ?app_length; cbn [length]; try lia.
  destruct (Nat.eqb_spec (o + length l) k) as [<-|N]; cbn [andb].
  - assert (E1 : (o <=? o + length l)%nat = true) by (apply Nat.leb_le; lia).
    assert (E2 : (o + length l <? o + (length l + 1))%nat = true) by (apply Nat.ltb_lt; lia).
    assert (E3 : (o + length l <? length b)%nat = true) by (apply Nat.ltb_lt; lia).
    rewrite E1, E2, E3. cbn [andb]. replace (o + length l - o)%nat with (length l) by lia. rewrite nth_error_app2, Nat.sub_diag by lia. reflexivity.
  - destruct (Nat.leb_spec o k); cbn [andb]; [|reflexivity].
    destruct (Nat.ltb_spec k (o + length l)), (Nat.ltb_spec k (o + (length l + 1))); try lia; try reflexivity.
    rewrite nth_error_app1 by lia. reflexivity.
Qed.

Lemma splice_same A (b : list A) o l : (o + length l <= length b)%nat ->
  (forall k, (k < length l)%nat -> nth_error b (o + k) = nth_error l k) -> splice b o l = b.
Proof.
  intros H E. apply list_ext. intros k. rewrite splice_nth by exact H.
  destruct (Nat.leb_spec o k); cbn [andb]; [|reflexivity]. destruct (Nat.ltb_spec k (o + length l)); [|reflexivity].
  rewrite <- E by lia. f_equal. lia.
Qed.

Lemma upd_same A : forall (l : list A) n, (n < length l)%nat -> forall d, upd l n (nth n l d) = l.
Proof. induction l; intros [|n] H d; cbn in *; auto; try lia. now rewrite IHl by lia. Qed.

Lemma upd_upd A : forall (l : list A) n x y, upd (upd l n x) n y = upd l n y.
Proof. induction l; intros [|n] x y; cbn; auto. now rewrite IHl. Qed.

Lemma first_step A (l : list A) k x : nth_error l k = Some x -> firstn (S k) l = firstn k l ++ [x].
Proof. revert k. induction l; intros [|k] H; cbn in *; try discriminate; [now injection H as ->|]. now rewrite <- IHl. Qed.

(** ** Reading and writing *)

Section Memory.
Context {F : Type}.
Implicit Types m : list (list F).

Lemma block m p : inside m p -> nth_error m (p_block p) = Some (nth (p_block p) m []).
Proof. intros (H & _). now apply nth_error_nth'. Qed.

Lemma fits m p (l : list F) : inside m p -> lenZ l <= p_dim p ->
  (Z.to_nat (p_off p) + length l <= length (nth (p_block p) m []))%nat.
Proof. unfold inside, lenZ. intros (A & B & C & D) L. lia. Qed.

Lemma replaced_block m p l : replaced m p l = upd m (p_block p) (splice (nth (p_block p) m []) (Z.to_nat (p_off p)) l).
Proof. reflexivity. Qed.

Lemma nth_upd m n b : (n < length m)%nat -> nth n (upd m n b) [] = b.
Proof.
  intros L. assert (E : nth_error (upd m n b) n = Some b).
  { rewrite nth_error_upd, Nat.eqb_refl. apply Nat.ltb_lt in L. now rewrite L. }
  now apply nth_error_nth with (d := []) in E.
Qed.

Lemma replaced_length m p l : length (replaced m p l) = length m.
Proof. unfold replaced. cbn zeta. now rewrite upd_length. Qed.

Lemma replaced_sizes m p l i : inside m p -> lenZ l <= p_dim p -> length (nth i (replaced m p l) []) = length (nth i m []).
Proof.
  intros H L. rewrite replaced_block. destruct (Nat.eq_dec (p_block p) i) as [<-|N].
  - rewrite nth_upd by apply H. now apply splice_len, fits.
  - f_equal. assert (E : nth_error (upd m (p_block p) (splice (nth (p_block p) m []) (Z.to_nat (p_off p)) l)) i = nth_error m i).
    { rewrite nth_error_upd. destruct (Nat.eqb_spec (p_block p) i); [congruence|]. reflexivity. }
    destruct (nth_error m i) as [b|] eqn:B.
    + apply nth_error_nth with (d := []) in E, B. congruence.
    + apply nth_error_None in E, B. now rewrite !nth_overflow.
Qed.

Lemma inside_replaced m p l q : inside m p -> lenZ l <= p_dim p -> inside m q -> inside (replaced m p l) q.
Proof.
  intros H L (A & B & C & D). unfold inside. rewrite replaced_length. unfold lenZ. rewrite replaced_sizes by assumption.
  unfold lenZ in D. auto.
Qed.

Lemma rd_spec m q j x : inside m q -> 0 <= p_off q + j ->
  rd m q j = Ok x <-> nth_error (nth (p_block q) m []) (Z.to_nat (p_off q + j)) = Some x.
Proof.
  intros H G. unfold rd, getZ. rewrite (block _ _ H). destruct (Z.ltb_spec (p_off q + j) 0); [lia|].
  destruct (nth_error _ _); split; congruence.
Qed.

(** The elements of a part one by one. *)
Lemma contents_len m p : inside m p -> lenZ (contents m p) = p_dim p.
Proof. unfold inside, contents, lenZ. intros (A & B & C & D). rewrite firstn_length, skipn_length. lia. Qed.

Lemma contents_nth m p k : inside m p -> (k < Z.to_nat (p_dim p))%nat ->
  nth_error (contents m p) k = nth_error (nth (p_block p) m []) (Z.to_nat (p_off p) + k).
Proof. intros H L. unfold contents. rewrite nth_first by exact L. apply nth_skip. Qed.

Lemma rd_contents m p k x : inside m p -> 0 <= k < p_dim p -> rd m p k = Ok x <-> nth_error (contents m p) (Z.to_nat k) = Some x.
Proof.
  intros H L. assert (B : 0 <= p_off p) by apply H. rewrite rd_spec, contents_nth by (try assumption; lia).
  replace (Z.to_nat (p_off p + k)) with (Z.to_nat (p_off p) + Z.to_nat k)%nat by lia. tauto.
Qed.

Lemma contents_at m p k : inside m p -> 0 <= k < p_dim p -> exists x, rd m p k = Ok x /\ nth_error (contents m p) (Z.to_nat k) = Some x.
Proof.
  intros H L. destruct (nth_error (contents m p) (Z.to_nat k)) as [x|] eqn:E.
  - exists x. split; [|reflexivity]. now apply rd_contents.
  - exfalso. apply nth_error_None in E. pose proof (contents_len m p H) as C. unfold lenZ in C. lia.
Qed.

Lemma replaced_contents m p : inside m p -> replaced m p (contents m p) = m.
Proof.
  intros H. pose proof (contents_len m p H) as C. rewrite replaced_block, splice_same; [apply upd_same; apply H|apply fits; [exact H|lia]|].
  intros k L. symmetry. apply contents_nth; [exact H|]. unfold lenZ in C. lia.
Qed.

Lemma replaced_none m p : inside m p -> replaced m p [] = m.
Proof.
  intros H. rewrite replaced_block, splice_same; [apply upd_same; apply H| |cbn; lia].
  destruct H as (A & B & C & D). unfold lenZ in D. cbn [length]. lia.
Qed.

(** Reading a part after another was partly replaced. *)
Lemma rd_other m p l q j : inside m p -> lenZ l <= p_dim p -> inside m q -> 0 <= j ->
  (p_block p <> p_block q \/ p_off q + j < p_off p \/ p_off p + lenZ l <= p_off q + j) ->
  rd (replaced m p l) q j = rd m q j.
Proof.
  intros H L Hq J D. unfold rd. rewrite replaced_block, nth_error_upd. destruct (Nat.eqb_spec (p_block p) (p_block q)) as [E|N]; cbn [andb]; [|reflexivity].
  assert (A : (p_block p <? length m)%nat = true) by (apply Nat.ltb_lt; apply H).
  rewrite <- E, A. rewrite (block _ _ H). unfold getZ.
  destruct (Z.ltb_spec (p_off q + j) 0); [reflexivity|]. rewrite splice_nth by now apply fits.
  destruct D as [D|D]; [congruence|]. unfold lenZ in *. assert (0 <= p_off p) by apply H.
  destruct (Nat.leb_spec (Z.to_nat (p_off p)) (Z.to_nat (p_off q + j))); cbn [andb]; [|reflexivity].
  destruct (Nat.ltb_spec (Z.to_nat (p_off q + j)) (Z.to_nat (p_off p) + length l)); [lia|reflexivity].
Qed.

Lemma rd_new m p l k : inside m p -> lenZ l <= p_dim p -> 0 <= k < lenZ l ->
  exists x, rd (replaced m p l) p k = Ok x /\ nth_error l (Z.to_nat k) = Some x.
Proof.
  intros H L K. destruct (nth_error l (Z.to_nat k)) as [x|] eqn:E; [|apply nth_error_None in E; unfold lenZ in K; lia].
  exists x. split; [|reflexivity]. apply rd_spec; [now apply inside_replaced|assert (0 <= p_off p) by apply H; lia|].
  rewrite replaced_block, nth_upd by apply H. rewrite splice_nth by now apply fits. assert (0 <= p_off p) by apply H. unfold lenZ in K.
  destruct (Nat.leb_spec (Z.to_nat (p_off p)) (Z.to_nat (p_off p + k))); [|lia].
  destruct (Nat.ltb_spec (Z.to_nat (p_off p + k)) (Z.to_nat (p_off p) + length l)); [|lia]. cbn [andb].
  rewrite <- E. f_equal. lia.
Qed.

(** Writing the next element. *)
Lemma wr_next m p l k x : inside m p -> k = lenZ l -> k < p_dim p -> wr (replaced m p l) p k x = Ok (replaced m p (l ++ [x])).
Proof.
  intros H -> L. unfold wr. assert (Hl := inside_replaced m p l p H ltac:(lia) H). rewrite (block _ _ Hl), replaced_block, nth_upd by apply H.
  pose proof (fits m p (l ++ [x]) H) as Ft. unfold lenZ in Ft, L. rewrite app_length in Ft. cbn [length] in Ft. specialize (Ft ltac:(lia)).
  assert (B : 0 <= p_off p) by apply H. unfold setZ.
  assert (T : (p_off p + lenZ l <? 0) || (Z.of_nat (length (splice (nth (p_block p) m []) (Z.to_nat (p_off p)) l)) <=? p_off p + lenZ l) = false).
  { rewrite splice_len by lia. unfold lenZ. apply Bool.orb_false_iff. split; [apply Z.ltb_ge|apply Z.leb_gt]; lia. }
  rewrite T. cbn [bind]. replace (Z.to_nat (p_off p + lenZ l)) with (Z.to_nat (p_off p) + length l)%nat by (unfold lenZ; lia).
  rewrite splice_upd by lia. rewrite upd_upd. reflexivity.
Qed.

Lemma replaced_next m p l k x : inside m p -> k = lenZ l -> k < p_dim p -> rd m p k = Ok x -> replaced m p (l ++ [x]) = replaced m p l.
Proof.
  intros H -> L R. rewrite !replaced_block. f_equal. apply list_ext. intros k.
  pose proof (fits m p (l ++ [x]) H) as Ft. unfold lenZ in Ft, L. rewrite app_length in Ft. cbn [length] in Ft. specialize (Ft ltac:(lia)).
  rewrite !splice_nth by (rewrite ?app_length; cbn [length]; lia). rewrite app_length. cbn [length].
  destruct (Nat.leb_spec (Z.to_nat (p_off p)) k); cbn [andb]; [|reflexivity].
  destruct (Nat.ltb_spec k (Z.to_nat (p_off p) + (length l + 1))), (Nat.ltb_spec k (Z.to_nat (p_off p) + length l)); try lia; try reflexivity.
  - now rewrite nth_error_app1 by lia.
  - assert (B : 0 <= p_off p) by apply H. apply rd_spec in R; [|exact H|unfold lenZ; lia].
    replace (k - Z.to_nat (p_off p))%nat with (length l) by lia. rewrite nth_error_app2, Nat.sub_diag by lia.
    cbn [nth_error]. rewrite <- R. f_equal. unfold lenZ. lia.
Qed.

(** ** Loops that replace one element after the other *)

Lemma first_len (l : list F) n k : lenZ l = n -> 0 <= k <= n -> lenZ (firstn (Z.to_nat k) l) = k.
Proof. unfold lenZ. intros E K. rewrite firstn_length. lia. Qed.

Lemma loop_to m p (vals : list F) (body : list (list F) -> Z -> res (list (list F))) n : inside m p -> lenZ vals = p_dim p -> 0 <= n <= p_dim p ->
  (forall k x, 0 <= k < n -> nth_error vals (Z.to_nat k) = Some x ->
     body (replaced m p (firstn (Z.to_nat k) vals)) k = Ok (replaced m p (firstn (Z.to_nat k) vals ++ [x]))) ->
  for_up 0 n body m = Ok (replaced m p (firstn (Z.to_nat n) vals)).
Proof.
  intros H L N B.
  destruct (Loop.for_up_inv _ (fun k m' => m' = replaced m p (firstn (Z.to_nat k) vals)) body 0 n m) as (m' & E & ->); [lia| | |exact E].
  - cbn. now rewrite replaced_none.
  - intros k s K ->. destruct (nth_error vals (Z.to_nat k)) as [x|] eqn:E.
    + rewrite (B k x K E). eexists. split; [reflexivity|]. replace (Z.to_nat (k + 1)) with (S (Z.to_nat k)) by lia. now rewrite (first_step _ _ _ _ E).
    + exfalso. apply nth_error_None in E. unfold lenZ in L. lia.
Qed.

Lemma loop m p (vals : list F) body : inside m p -> lenZ vals = p_dim p ->
  (forall k x, 0 <= k < p_dim p -> nth_error vals (Z.to_nat k) = Some x ->
     body (replaced m p (firstn (Z.to_nat k) vals)) k = Ok (replaced m p (firstn (Z.to_nat k) vals ++ [x]))) ->
  for_up 0 (p_dim p) body m = Ok (replaced m p vals).
Proof.
  intros H L B. assert (0 <= p_dim p) by apply H. rewrite (loop_to m p vals body (p_dim p) H L ltac:(lia) B). f_equal. f_equal. apply firstn_all2. unfold lenZ in L. lia.
Qed.

(** Inside the loop the elements from [k] on are the old ones. *)
Lemma rd_old m p (vals : list F) k : inside m p -> lenZ vals = p_dim p -> 0 <= k < p_dim p ->
  rd (replaced m p (firstn (Z.to_nat k) vals)) p k = rd m p k.
Proof.
  intros H L K. assert (Fl := first_len vals _ k L ltac:(lia)). apply rd_other; auto; try lia.
Qed.

Lemma each_ok m p f vals : inside m p -> lenZ vals = p_dim p ->
  (forall k x, nth_error (contents m p) k = Some x -> exists y, f x = Ok y /\ nth_error vals k = Some y) ->
  each m p f = Ok (replaced m p vals).
Proof.
  intros H L Hf. unfold each. apply loop; [exact H|exact L|]. intros k x K E.
  assert (Fl := first_len vals _ k L ltac:(lia)).
  destruct (contents_at m p k H K) as (a & R & C). rewrite rd_old, R by assumption. cbn [bind].
  destruct (Hf _ _ C) as (y & Fy & Y). rewrite Fy. cbn [bind]. rewrite E in Y. injection Y as <-.
  apply wr_next; [exact H|lia|lia].
Qed.

Lemma each_map m p g : inside m p -> each m p (fun x => Ok (g x)) = Ok (replaced m p (map g (contents m p))).
Proof.
  intros H. apply each_ok; [exact H|unfold lenZ; rewrite map_length; now apply contents_len|].
  intros k x E. exists (g x). split; [reflexivity|]. now apply map_nth_error.
Qed.

(** A loop that stops. *)
Lemma up_fault S (body : S -> Z -> res S) a b s f : a < b -> body s a = Fault f -> for_up a b body s = Fault f.
Proof.
  intros L E. unfold for_up. destruct (Z.to_nat (b - a)) eqn:N; [lia|]. cbn [seqZ for_each]. now rewrite E.
Qed.

(** A loop that only reads. *)
Lemma read_fold m p q (g : F -> F -> F -> F) body : inside m p -> inside m q -> p_dim p = p_dim q ->
  (forall s k x y, 0 <= k < p_dim p -> rd m p k = Ok x -> rd m q k = Ok y -> body s k = Ok (g s x y)) ->
  forall z, for_up 0 (p_dim p) body z = Ok (fold_left (fun s xy => g s (fst xy) (snd xy)) (combine (contents m p) (contents m q)) z).
Proof.
  intros H Hq D B z. assert (P0 : 0 <= p_dim p) by apply H.
  destruct (Loop.for_up_inv _ (fun k s => s = fold_left (fun s xy => g s (fst xy) (snd xy)) (firstn (Z.to_nat k) (combine (contents m p) (contents m q))) z) body 0 (p_dim p) z)
    as (s & E & ->); [exact P0|reflexivity| |].
  - intros k s K ->. destruct (contents_at m p k H K) as (x & R & C). destruct (contents_at m q k Hq ltac:(lia)) as (y & R' & C').
    rewrite (B _ k x y K R R'). eexists. split; [reflexivity|]. replace (Z.to_nat (k + 1)) with (S (Z.to_nat k)) by lia.
    assert (N : nth_error (combine (contents m p) (contents m q)) (Z.to_nat k) = Some (x, y)).
    { clear -C C'. revert C C'. generalize (contents m p) (contents m q) (Z.to_nat k). intros l. induction l as [|a l IH]; intros [|b l'] [|n] C C'; cbn in *; try discriminate.
      - now injection C as ->; injection C' as ->.
      - now apply IH. }
    rewrite (first_step _ _ _ _ N), fold_left_app. reflexivity.
  - rewrite E. f_equal. f_equal. apply firstn_all2. pose proof (contents_len m p H) as Lp. unfold lenZ in Lp. rewrite combine_length. lia.
Qed.

Lemma pair_nth (g : F -> F -> F) l l' k x y : nth_error l k = Some x -> nth_error l' k = Some y -> nth_error (pairwise g l l') k = Some (g x y).
Proof.
  unfold pairwise. revert l' k. induction l as [|a l IH]; intros [|b l'] [|n] C C'; cbn in *; try discriminate.
  - now injection C as ->; injection C' as ->.
  - now apply IH.
Qed.

Lemma pair_len (g : F -> F -> F) l l' : length l = length l' -> length (pairwise g l l') = length l.
Proof. intros E. unfold pairwise. rewrite map_length, combine_length. lia. Qed.

(** What lies apart is not changed. *)
Lemma contents_apart m p l q : inside m p -> lenZ l = p_dim p -> inside m q -> apart p q -> contents (replaced m p l) q = contents m q.
Proof.
  intros H L Hq A. assert (Hq' := inside_replaced m p l q H ltac:(lia) Hq). apply list_ext. intros k.
  pose proof (contents_len _ _ Hq) as L1. pose proof (contents_len _ _ Hq') as L2. unfold lenZ in L1, L2.
  destruct (Nat.lt_ge_cases k (Z.to_nat (p_dim q))) as [G|G].
  - assert (K : 0 <= Z.of_nat k < p_dim q) by lia.
    destruct (contents_at _ _ _ Hq K) as (x & R & C). destruct (contents_at _ _ _ Hq' K) as (y & R' & C'). rewrite Nat2Z.id in C, C'.
    rewrite rd_other in R'; [congruence| | | | |]; auto; try lia. unfold apart in A. lia.
  - rewrite (proj2 (nth_error_None _ _)), (proj2 (nth_error_None _ _)); [reflexivity| |]; lia.
Qed.

Lemma contents_replaced m p l : inside m p -> lenZ l = p_dim p -> contents (replaced m p l) p = l.
Proof.
  intros H L. assert (H' := inside_replaced m p l p H ltac:(lia) H). apply list_ext. intros k.
  pose proof (contents_len _ _ H') as L2. unfold lenZ in L2, L.
  destruct (Nat.lt_ge_cases k (length l)) as [G|G].
  - assert (K : 0 <= Z.of_nat k < lenZ l) by (unfold lenZ; lia).
    destruct (rd_new m p l _ H ltac:(unfold lenZ; lia) K) as (x & R & C). destruct (contents_at _ _ (Z.of_nat k) H' ltac:(unfold lenZ in K; lia)) as (y & R' & C').
    rewrite Nat2Z.id in C, C'. congruence.
  - rewrite (proj2 (nth_error_None _ _)), (proj2 (nth_error_None _ _)); [reflexivity| |]; lia.
Qed.
End Memory.
