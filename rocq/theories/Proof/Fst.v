(** The tables of a transducer: layout, file, arc lookup. *)
From Coq Require Import ZArith List Bool Lia Permutation.
From Verif.Base Require Import Prelude Lemmas.
From Verif.Model Require Import Util File Binary Arith Vector Formats Fst.
From Verif.Spec Require Import AudioSpec AmSpec FormatSpec FstSpec.
From Verif.Proof Require Import Loop Binary Am Formats.
Import ListNotations.
Open Scope Z_scope.

Ltac Zify.zify_post_hook ::= Z.div_mod_to_equations.

(** * Sorting *)
Fixpoint linsert {W} (x : arc W) (l : list (arc W)) : list (arc W) :=
  match l with
  | [] => [x]
  | y :: l => if input_label x <=? input_label y then x :: y :: l else y :: linsert x l
  end.

Definition lsort {W} (l : list (arc W)) : list (arc W) := fold_right linsert [] l.

Section Sort.
Context {W : Type}.

Lemma linsert_perm : forall (x : arc W) l, Permutation (x :: l) (linsert x l).
Proof.
  intros x l. induction l as [|y l IH]; [reflexivity|]. cbn [linsert].
  destruct (input_label x <=? input_label y); [reflexivity|].
  rewrite perm_swap. constructor. exact IH.
Qed.

Lemma lsort_perm : forall l : list (arc W), Permutation l (lsort l).
Proof.
  induction l as [|x l IH]; [constructor|]. cbn [lsort fold_right]. rewrite <- linsert_perm. constructor. exact IH.
Qed.

Lemma lsort_length : forall l : list (arc W), length (lsort l) = length l.
Proof. intros l. symmetry. apply Permutation_length, lsort_perm. Qed.

Lemma linsert_sorted : forall (x : arc W) l, by_label l -> by_label (linsert x l).
Proof.
  intros x l. induction l as [|y l IH]; intros H; [exact I|]. cbn [linsert].
  destruct (Z.leb_spec (input_label x) (input_label y)); [split; [assumption|exact H]|].
  destruct l as [|z l]; [cbn; split; [lia|exact I]|].
  destruct H as [H1 H2]. specialize (IH H2). cbn [linsert] in *.
  destruct (input_label x <=? input_label z) eqn:Q.
  - apply Z.leb_le in Q. split; [lia|]. split; [lia|exact H2].
  - split; [assumption|exact IH].
Qed.

Lemma lsort_sorted : forall l : list (arc W), by_label (lsort l).
Proof. induction l as [|x l IH]; [exact I|]. apply linsert_sorted, IH. Qed.

Lemma labelled_linsert : forall y (x : arc W) l, labelled y (linsert x l) = labelled y (x :: l).
Proof.
  intros y x l. induction l as [|z l IH]; [reflexivity|]. cbn [linsert].
  destruct (Z.leb_spec (input_label x) (input_label z)); [reflexivity|].
  unfold labelled in *. cbn [filter] in *. rewrite IH.
  destruct (Z.eqb_spec (input_label x) y), (Z.eqb_spec (input_label z) y); try reflexivity. lia.
Qed.

Lemma labelled_lsort : forall y (l : list (arc W)), labelled y (lsort l) = labelled y l.
Proof.
  intros y. induction l as [|x l IH]; [reflexivity|]. cbn [lsort fold_right].
  change (fold_right linsert [] l) with (lsort l). rewrite labelled_linsert.
  unfold labelled in *. cbn [filter]. rewrite IH. reflexivity.
Qed.

Lemma by_label_tail : forall (a : arc W) l, by_label (a :: l) -> by_label l.
Proof. intros a [|b l] H; [exact I|apply H]. Qed.

Lemma by_label_head : forall (a : arc W) l, by_label (a :: l) -> forall b, In b l -> input_label a <= input_label b.
Proof.
  intros a l. revert a. induction l as [|c l IH]; intros a H b I; [destruct I|].
  destruct H as [H1 H2]. destruct I as [->|I]; [assumption|]. specialize (IH c H2 b I). lia.
Qed.

(** The stable sort by state and label sorts each state's arcs. *)
Definition blocks (l : list (W * list (arc W))) : list (list (arc W)) := map (fun st => lsort (snd st)) l.

Fixpoint tag (s : Z) (bs : list (list (arc W))) : list (Z * arc W) :=
  match bs with
  | [] => []
  | b :: bs => map (pair s) b ++ tag (s + 1) bs
  end.

Lemma tag_above : forall bs s x, In x (tag s bs) -> s <= Datatypes.fst x.
Proof.
  induction bs as [|b bs IH]; intros s x I; [destruct I|]. cbn [tag] in I. apply in_app_or in I. destruct I as [I|I].
  - apply in_map_iff in I. destruct I as [a [<- _]]. cbn. lia.
  - apply IH in I. lia.
Qed.

Lemma insert_app : forall s (a : arc W) b rest, (forall x, In x rest -> s < Datatypes.fst x) ->
  insert (s, a) (map (pair s) b ++ rest) = map (pair s) (linsert a b) ++ rest.
Proof.
  intros s a b rest H. induction b as [|c b IH]; cbn [map app linsert insert].
  - destruct rest as [|x rest]; [reflexivity|]. cbn [insert]. unfold key_le. cbn [Datatypes.fst snd].
    destruct (Z.ltb_spec s (Datatypes.fst x)); [reflexivity|]. specialize (H x (or_introl eq_refl)). lia.
  - unfold key_le. cbn [Datatypes.fst snd]. rewrite Z.ltb_irrefl, Z.eqb_refl. cbn [orb andb].
    destruct (input_label a <=? input_label c); [reflexivity|]. rewrite IH. reflexivity.
Qed.

Lemma sort_tagged : forall l s, fold_right insert [] (tagged s l) = tag s (blocks l).
Proof.
  induction l as [|[w a] l IH]; intros s; [reflexivity|]. cbn [tagged blocks map tag snd].
  rewrite fold_right_app, IH. change (map (fun st => lsort (snd st)) l) with (blocks l).
  assert (A : forall x, In x (tag (s + 1) (blocks l)) -> s < Datatypes.fst x).
  { intros x I. apply tag_above in I. lia. }
  induction a as [|x a IHa]; [reflexivity|]. cbn [map fold_right]. rewrite IHa.
  rewrite insert_app by assumption. reflexivity.
Qed.

Lemma map_snd_tag : forall bs s, map snd (tag s bs) = concat bs.
Proof.
  induction bs as [|b bs IH]; intros s; [reflexivity|]. cbn [tag concat]. rewrite map_app, IH, map_map, map_id. reflexivity.
Qed.

(** The index table. *)
Fixpoint index_from (off : Z) (bs : list (list (arc W))) : list Z :=
  match bs with
  | [] => []
  | b :: bs => (match b with [] => -1 | _ => off end) :: index_from (off + lenZ b) bs
  end.

Lemma first_index_none : forall l i s, (forall x, In x l -> s < Datatypes.fst x) -> first_index i s (l : list (Z * arc W)) = -1.
Proof.
  induction l as [|[s' a] l IH]; intros i s H; [reflexivity|]. cbn [first_index].
  destruct (Z.eqb_spec s' s).
  - specialize (H (s', a) (or_introl eq_refl)). cbn in H. lia.
  - apply IH. intros x I. apply H. right. exact I.
Qed.

Lemma first_index_skip : forall b i s s' (rest : list (Z * arc W)), s' <> s ->
  first_index i s (map (pair s') b ++ rest) = first_index (i + lenZ b) s rest.
Proof.
  induction b as [|a b IH]; intros i s s' rest H; cbn [map app first_index].
  - f_equal. unfold lenZ. cbn. lia.
  - destruct (Z.eqb_spec s' s); [lia|]. rewrite IH by assumption. f_equal. unfold lenZ. cbn [length]. lia.
Qed.

Lemma index_tag : forall bs off s,
  map (fun s' => first_index off s' (tag s bs)) (states_from s (length bs)) = index_from off bs.
Proof.
  induction bs as [|b bs IH]; intros off s; [reflexivity|].
  cbn [length states_from map index_from tag]. f_equal.
  - destruct b as [|a b]; [|cbn; rewrite Z.eqb_refl; reflexivity].
    cbn [map app]. apply first_index_none. intros x I. apply tag_above in I. lia.
  - rewrite <- (IH _ (s + 1)). apply map_ext_in. intros s' I.
    apply first_index_skip.
    assert (G : forall n a x, In x (states_from a n) -> a <= x).
    { induction n as [|n IHn]; intros a x J; [destruct J|]. destruct J as [<-|J]; [lia|]. apply IHn in J. lia. }
    apply G in I. lia.
Qed.

Lemma laid_out_tables : forall t : transducer W,
  state_idx (laid_out t) = index_from 0 (blocks (t_states t)) /\ arcs_ (laid_out t) = concat (blocks (t_states t)).
Proof.
  intros t. unfold laid_out, sorted_arcs. cbn [state_idx arcs_]. rewrite sort_tagged. split.
  - rewrite <- (index_tag _ 0 0). unfold blocks. rewrite map_length. reflexivity.
  - apply map_snd_tag.
Qed.

End Sort.

(** * Tables made of blocks *)
Section Blocks.
Context {W : Type} (g : fst W) (bs : list (list (arc W))).
Hypothesis Hidx : state_idx g = index_from 0 bs.
Hypothesis Harcs : arcs_ g = concat bs.

Definition off (n : nat) : Z := lenZ (concat (firstn n bs)).

Lemma index_from_length : forall (l : list (list (arc W))) o, length (index_from o l) = length l.
Proof. induction l as [|b l IH]; intros o; [reflexivity|]. cbn. rewrite IH. reflexivity. Qed.

Lemma index_from_nth : forall (l : list (list (arc W))) o n b, nth_error l n = Some b ->
  nth_error (index_from o l) n = Some (match b with [] => -1 | _ => o + lenZ (concat (firstn n l)) end).
Proof.
  induction l as [|c l IH]; intros o n b H; [destruct n; discriminate|].
  destruct n as [|n]; cbn [nth_error index_from firstn concat] in *.
  - injection H as ->. destruct b; [reflexivity|]. f_equal. unfold lenZ. cbn. lia.
  - rewrite (IH _ _ _ H). destruct b; [reflexivity|]. f_equal. rewrite lenZ_app. lia.
Qed.

Lemma index_from_skip : forall (l : list (list (arc W))) o n, skipn n (index_from o l) = index_from (o + lenZ (concat (firstn n l))) (skipn n l).
Proof.
  induction l as [|c l IH]; intros o n; [destruct n; reflexivity|].
  destruct n as [|n]; cbn [skipn index_from firstn concat].
  - replace (o + lenZ []) with o by (unfold lenZ; cbn; lia). reflexivity.
  - rewrite IH, lenZ_app. f_equal. lia.
Qed.

Lemma next_index_spec : forall (l : list (list (arc W))) o size, 0 < o -> size = o + lenZ (concat l) ->
  next_index (index_from o l) size = o.
Proof.
  induction l as [|c l IH]; intros o size P E; cbn [index_from next_index].
  - rewrite E. unfold lenZ. cbn. lia.
  - destruct c as [|a c].
    + destruct (Z.ltb_spec 0 (-1)); [lia|]. replace (o + lenZ []) with o by (unfold lenZ; cbn; lia).
      apply IH; [assumption|]. rewrite E. reflexivity.
    + destruct (Z.ltb_spec 0 o); [reflexivity|lia].
Qed.

Variable s : Z.
Variable b : list (arc W).
Hypothesis Hs : 0 <= s.
Hypothesis Hb : nth_error bs (Z.to_nat s) = Some b.

Lemma split_at : bs = firstn (Z.to_nat s) bs ++ b :: skipn (S (Z.to_nat s)) bs.
Proof.
  clear - Hb. revert Hb. generalize (Z.to_nat s). induction bs as [|c l IH]; intros n H; [destruct n; discriminate|].
  destruct n as [|n]; cbn in *; [congruence|]. f_equal. apply IH. assumption.
Qed.

Lemma index_at : getZ (state_idx g) s = Ok (match b with [] => -1 | _ => off (Z.to_nat s) end).
Proof. apply getZ_ok. split; [assumption|]. rewrite Hidx. rewrite (index_from_nth _ 0 _ _ Hb). reflexivity. Qed.

Lemma count_at : count_arcs g s = Ok (lenZ b).
Proof.
  unfold count_arcs. rewrite index_at. cbn [bind]. destruct b as [|a b'] eqn:Eb.
  - reflexivity.
  - assert (P : 0 <= off (Z.to_nat s)) by (unfold off, lenZ; lia).
    destruct (Z.ltb_spec (off (Z.to_nat s)) 0); [lia|]. f_equal.
    rewrite Hidx, index_from_skip. replace (Z.to_nat (s + 1)) with (S (Z.to_nat s)) by lia.
    assert (F : concat (firstn (S (Z.to_nat s)) bs) = concat (firstn (Z.to_nat s) bs) ++ a :: b').
    { clear - Hb. revert Hb. generalize (Z.to_nat s). induction bs as [|c l IH]; intros n H; [destruct n; discriminate|].
      destruct n as [|n]; cbn [firstn concat nth_error app] in *.
      - injection H as ->. rewrite app_nil_r. reflexivity.
      - rewrite IH by assumption. rewrite app_assoc. reflexivity. }
    rewrite F, next_index_spec.
    + unfold off. rewrite lenZ_app. lia.
    + rewrite lenZ_app. unfold lenZ. cbn [length]. lia.
    + rewrite Harcs. rewrite <- (firstn_skipn (S (Z.to_nat s)) bs) at 1. rewrite concat_app, lenZ_app, F. lia.
Qed.

Lemma arc_at : forall i, 0 <= i < lenZ b -> getZ (arcs_ g) (off (Z.to_nat s) + i) = getZ b i.
Proof.
  intros i H. rewrite Harcs. rewrite split_at at 1. rewrite concat_app. cbn [concat].
  destruct (getZ_total _ b i H) as [x E]. rewrite E. apply getZ_ok in E. destruct E as [_ E]. apply getZ_ok.
  fold (off (Z.to_nat s)). assert (0 <= off (Z.to_nat s)) by (unfold off, lenZ; lia). split; [lia|].
  rewrite nth_error_app2 by (unfold off, lenZ; lia).
  replace (Z.to_nat (off (Z.to_nat s) + i) - length (concat (firstn (Z.to_nat s) bs)))%nat with (Z.to_nat i)
    by (unfold off, lenZ; lia).
  rewrite nth_error_app1; [assumption|]. apply nth_error_Some. congruence.
Qed.

Lemma iterate_at : iterate_arcs g s = Ok b.
Proof.
  unfold iterate_arcs.
  assert (L : 0 <= s < lenZ (state_idx g)).
  { rewrite Hidx. unfold lenZ. rewrite index_from_length. split; [assumption|].
    assert (Z.to_nat s < length bs)%nat by (apply nth_error_Some; congruence). lia. }
  destruct (Z.leb_spec 0 s); [|lia]. destruct (Z.ltb_spec s (lenZ (state_idx g))); [|lia]. cbn [andb check bind].
  rewrite count_at, index_at. cbn [bind].
  destruct (for_up_inv _ (fun k l => l = firstn (Z.to_nat k) b)
    (fun l i => a <- getZ (arcs_ g) (match b with [] => -1 | _ => off (Z.to_nat s) end + i) ;; Ok (l ++ [a])) 0 (lenZ b) [])
    as [l [E R]].
  - unfold lenZ. lia.
  - reflexivity.
  - intros k l K ->. destruct b as [|a0 b'] eqn:Eb; [unfold lenZ in K; cbn in K; lia|]. rewrite <- Eb in *.
    rewrite arc_at by assumption. destruct (getZ_total _ b k K) as [x Ex]. rewrite Ex. cbn [bind].
    eexists. split; [reflexivity|]. apply getZ_ok in Ex. destruct Ex as [_ Ex].
    replace (Z.to_nat (k + 1)) with (S (Z.to_nat k)) by lia.
    clear - Ex. revert Ex. generalize (Z.to_nat k). clear. induction b as [|c l IH]; intros n H; [destruct n; discriminate|].
    destruct n as [|n]; cbn [firstn app nth_error] in *; [congruence|]. f_equal. apply IH. assumption.
  - rewrite E. f_equal. rewrite R. apply firstn_all2. unfold lenZ. lia.
Qed.

Lemma backoff_at : backoff_arc g s =
  Ok (match b with a :: _ => if input_label a =? 0 then Some a else None | [] => None end).
Proof.
  unfold backoff_arc. rewrite count_at, index_at. cbn [bind]. destruct b as [|a b'] eqn:Eb; [reflexivity|]. rewrite <- Eb in *.
  assert (P : 0 < lenZ b) by (rewrite Eb; unfold lenZ; cbn [length]; lia).
  destruct (Z.eqb_spec (lenZ b) 0); [lia|].
  replace (off (Z.to_nat s)) with (off (Z.to_nat s) + 0) by lia. rewrite arc_at by lia.
  rewrite Eb. reflexivity.
Qed.


Lemma by_label_mono : forall l : list (arc W), by_label l -> forall i j x y, getZ l i = Ok x -> getZ l j = Ok y -> i <= j ->
  input_label x <= input_label y.
Proof.
  intros l S i j x y Hi Hj L. apply getZ_ok in Hi. apply getZ_ok in Hj. destruct Hi as [Pi Hi]. destruct Hj as [Pj Hj].
  assert (L' : (Z.to_nat i <= Z.to_nat j)%nat) by lia. revert S Hi Hj L'. generalize (Z.to_nat i) (Z.to_nat j). clear.
  induction l as [|a l IH]; intros n m S Hi Hj L; [destruct n; discriminate|].
  destruct n as [|n], m as [|m]; cbn in Hi, Hj.
  - assert (x = y) by congruence. subst. lia.
  - injection Hi as <-. apply (by_label_head a l S). eapply nth_error_In. exact Hj.
  - lia.
  - apply (IH n m); auto; [eapply by_label_tail; exact S|lia].
Qed.

Hypothesis Hsort : by_label b.

Lemma lower_bound_at : forall x fuel first len, 0 <= first -> 0 <= len -> first + len <= lenZ b -> len < Z.of_nat fuel ->
  (forall i a, getZ b i = Ok a -> i < first -> input_label a < x) ->
  (forall i a, getZ b i = Ok a -> first + len <= i -> x <= input_label a) ->
  exists p, lower_bound fuel (arcs_ g) (off (Z.to_nat s) + first) len x = Ok (off (Z.to_nat s) + p) /\ 0 <= p <= lenZ b /\
    (forall i a, getZ b i = Ok a -> i < p -> input_label a < x) /\
    (forall i a, getZ b i = Ok a -> p <= i -> x <= input_label a).
Proof.
  intros x. induction fuel as [|fuel IH]; intros first len P1 P2 P3 P4 A B; [lia|]. cbn [lower_bound].
  destruct (Z.leb_spec len 0).
  - exists first. split; [reflexivity|]. split; [lia|]. split; [assumption|]. intros i a G L. apply (B i a G). lia.
  - cbv zeta. replace (off (Z.to_nat s) + first + len / 2) with (off (Z.to_nat s) + (first + len / 2)) by lia.
    rewrite arc_at by lia. destruct (getZ_total _ b (first + len / 2)) as [c Ec]; [lia|]. rewrite Ec. cbn [bind].
    destruct (Z.ltb_spec (input_label c) x) as [C|C].
    + replace (off (Z.to_nat s) + (first + len / 2) + 1) with (off (Z.to_nat s) + (first + len / 2 + 1)) by lia.
      apply IH; try lia.
      * intros i a G L. assert (input_label a <= input_label c); [|lia].
        apply (by_label_mono b Hsort i (first + len / 2)); auto. lia.
      * intros i a G L. apply (B i a G). lia.
    + apply IH; try lia; [assumption|].
      intros i a G L. assert (input_label c <= input_label a); [|lia].
      apply (by_label_mono b Hsort (first + len / 2) i); auto.
Qed.

Lemma labelled_below : forall x (l : list (arc W)), (forall a, In a l -> input_label a <> x) -> labelled x l = [].
Proof.
  intros x. induction l as [|a l IH]; intros H; [reflexivity|]. unfold labelled in *. cbn [filter].
  destruct (Z.eqb_spec (input_label a) x) as [E|E].
  - destruct (H a (or_introl eq_refl) E).
  - apply IH. intros c I. apply H. right. exact I.
Qed.

Lemma get_at : forall x, get_arc g s x = Ok (hd_error (labelled x b)).
Proof.
  intros x. unfold get_arc. rewrite count_at, index_at. cbn [bind].
  destruct (Z.eqb_spec (lenZ b) 0) as [Z0|NZ].
  - destruct b; [reflexivity|unfold lenZ in Z0; cbn [length] in Z0; lia].
  - assert (P : 0 < lenZ b) by (unfold lenZ in *; lia).
    replace (match b with [] => -1 | _ :: _ => off (Z.to_nat s) end) with (off (Z.to_nat s))
      by (destruct b; [unfold lenZ in NZ; cbn in NZ; lia|reflexivity]).
    destruct (lower_bound_at x (S (Z.to_nat (lenZ b))) 0 (lenZ b)) as [p [E [R [A B]]]]; try lia.
    { intros i a G L. apply getZ_lt in G. lia. }
    { intros i a G L. apply getZ_lt in G. lia. }
    rewrite Z.add_0_r in E. rewrite E. cbn [bind].
    assert (D : labelled x b = labelled x (skipn (Z.to_nat p) b)).
    { rewrite <- (firstn_skipn (Z.to_nat p) b) at 1. unfold labelled. rewrite filter_app.
      change (filter (fun a => input_label a =? x) (firstn (Z.to_nat p) b)) with (labelled x (firstn (Z.to_nat p) b)).
      rewrite (labelled_below x (firstn (Z.to_nat p) b)); [reflexivity|].
      intros a I. apply In_nth_error in I. destruct I as [n I].
      assert (N : (n < Z.to_nat p)%nat).
      { assert (n < length (firstn (Z.to_nat p) b))%nat by (apply nth_error_Some; congruence).
        rewrite firstn_length in *. lia. }
      assert (G : getZ b (Z.of_nat n) = Ok a).
      { apply getZ_ok. split; [lia|]. rewrite Nat2Z.id. rewrite <- (firstn_skipn (Z.to_nat p) b).
        rewrite nth_error_app1; [assumption|]. apply nth_error_Some. congruence. }
      specialize (A _ _ G). lia. }
    destruct (Z.eqb_spec (off (Z.to_nat s) + p) (off (Z.to_nat s) + lenZ b)) as [Q|Q].
    + rewrite D, skipn_all2 by (unfold lenZ in *; lia). reflexivity.
    + rewrite arc_at by lia. destruct (getZ_total _ b p) as [a Ea]; [lia|]. rewrite Ea. cbn [bind]. f_equal. rewrite D.
      assert (Sk : skipn (Z.to_nat p) b = a :: skipn (S (Z.to_nat p)) b).
      { apply getZ_ok in Ea. destruct Ea as [_ Ea]. clear - Ea. revert Ea. generalize (Z.to_nat p).
        induction b as [|c l IH]; intros n H; [destruct n; discriminate|].
        destruct n as [|n]; cbn [skipn nth_error] in *; [congruence|]. rewrite IH by assumption. reflexivity. }
      rewrite Sk. unfold labelled. cbn [filter]. destruct (Z.eqb_spec (input_label a) x) as [Ex|Ex]; [reflexivity|].
      fold (labelled x (skipn (S (Z.to_nat p)) b)). rewrite labelled_below; [reflexivity|].
      intros c I. apply In_nth_error in I. destruct I as [n I].
      assert (G : getZ b (p + 1 + Z.of_nat n) = Ok c).
      { apply getZ_ok. split; [lia|]. replace (Z.to_nat (p + 1 + Z.of_nat n)) with (S (Z.to_nat p) + n)%nat by lia.
        rewrite <- (firstn_skipn (S (Z.to_nat p)) b). rewrite nth_error_app2 by (rewrite firstn_length; lia).
        rewrite firstn_length. apply getZ_lt in Ea. unfold lenZ in *.
        replace (S (Z.to_nat p) + n - Nat.min (S (Z.to_nat p)) (length b))%nat with n by lia. assumption. }
      assert (input_label a <= input_label c) by (apply (by_label_mono b Hsort p (p + 1 + Z.of_nat n)); auto; lia).
      specialize (B _ _ Ea). lia.
Qed.

End Blocks.

(** * The tables of a transducer *)
Section Laid.
Context {W : Type} (t : transducer W).

Lemma block_at : forall s, is_state t s -> nth_error (blocks (t_states t)) (Z.to_nat s) = Some (lsort (arcs_at t s)).
Proof.
  intros s [H1 H2]. unfold blocks, arcs_at. rewrite nth_error_map.
  destruct (nth_error (t_states t) (Z.to_nat s)) as [[w l]|] eqn:E; [reflexivity|].
  apply nth_error_None in E. lia.
Qed.

Lemma laid_iterate : forall s, is_state t s -> iterate_arcs (laid_out t) s = Ok (lsort (arcs_at t s)).
Proof.
  intros s H. destruct (laid_out_tables t) as [A B]. apply (iterate_at _ _ A B); [apply H|apply block_at, H].
Qed.

Lemma laid_get : forall s x, is_state t s -> get_arc (laid_out t) s x = Ok (hd_error (labelled x (arcs_at t s))).
Proof.
  intros s x H. destruct (laid_out_tables t) as [A B]. rewrite <- labelled_lsort.
  apply (get_at _ _ A B); [apply H|apply block_at, H|apply lsort_sorted].
Qed.

Lemma laid_backoff : forall s, is_state t s -> Forall (fun a => 0 <= input_label a) (arcs_at t s) ->
  backoff_arc (laid_out t) s = Ok (hd_error (labelled 0 (arcs_at t s))).
Proof.
  intros s H P. destruct (laid_out_tables t) as [A B].
  rewrite (backoff_at _ _ A B s (lsort (arcs_at t s)) (proj1 H) (block_at s H)). f_equal. rewrite <- labelled_lsort.
  assert (P' : Forall (fun a => 0 <= input_label a) (lsort (arcs_at t s))).
  { rewrite Forall_forall in *. intros a I. apply P. eapply Permutation_in; [symmetry; apply lsort_perm|exact I]. }
  pose proof (lsort_sorted (arcs_at t s)) as S. destruct (lsort (arcs_at t s)) as [|a l]; [reflexivity|].
  unfold labelled. cbn [filter]. inversion P'; subst. destruct (Z.eqb_spec (input_label a) 0); [reflexivity|].
  fold (labelled 0 l). rewrite labelled_below; [reflexivity|].
  intros c I. pose proof (by_label_head a l S c I). lia.
Qed.

Lemma laid_final : forall s f l, 0 <= s -> nth_error (t_states t) (Z.to_nat s) = Some (f, l) ->
  Z.of_nat (length (t_states t)) < 18446744073709551616 -> fst_final (laid_out t) s = Ok f.
Proof.
  intros s f l P E B. unfold fst_final. cbn [laid_out final_].
  assert (L : (Z.to_nat s < length (t_states t))%nat) by (apply nth_error_Some; congruence).
  unfold lenZ. rewrite map_length. unfold size_t. rewrite Z.mod_small by lia.
  destruct (Z.ltb_spec s (Z.of_nat (length (t_states t)))); [|lia]. cbn [check bind]. apply getZ_ok. split; [assumption|].
  rewrite nth_error_map, E. reflexivity.
Qed.

End Laid.

(** * The file *)
Definition arc_words (a : arc Z) : list Z := [next_state a; input_label a; output_label a; weight a].

Lemma arcs_of_words : forall l, arcs_of (length l) (flat_map arc_words l) = l.
Proof. induction l as [|[a b c d] l IH]; [reflexivity|]. cbn. rewrite IH. reflexivity. Qed.

Lemma flat_map_arc : forall l, flat_map (fun a : arc Z => word (next_state a) ++ word (input_label a) ++ word (output_label a) ++ word (weight a)) l
  = flat_map word (flat_map arc_words l).
Proof.
  induction l as [|a l IH]; [reflexivity|]. cbn [flat_map arc_words app]. rewrite IH. rewrite <- !app_assoc. reflexivity.
Qed.

Lemma arc_words_length : forall l, length (flat_map arc_words l) = (4 * length l)%nat.
Proof. induction l as [|a l IH]; [reflexivity|]. cbn [flat_map arc_words app length]. rewrite IH. lia. Qed.

Lemma reads_array : forall width n c, 0 < width -> 0 < n -> width * n <= 2147483647 -> lenZ c = width * n ->
  reads (io_array width n) c c.
Proof.
  intros width n c P0 P1 P2 L. unfold io_array. destruct (Z.ltb_spec n 0); [lia|].
  rewrite wrap32_id by nia. rewrite Z.eqb_refl. apply reads_read; [assumption|nia].
Qed.

Lemma total_arcs : forall W (t : transducer W), lenZ (arcs_ (laid_out t)) = number_of_arcs t.
Proof.
  intros W t. destruct (laid_out_tables t) as [_ ->]. unfold number_of_arcs, lenZ, blocks. f_equal.
  induction (t_states t) as [|[w l] ts IH]; [reflexivity|]. cbn [map concat flat_map snd].
  rewrite !app_length, IH, lsort_length. reflexivity.
Qed.

Lemma index_from_range : forall W (bs : list (list (arc W))) o, 0 <= o ->
  Forall (fun i => -1 <= i <= o + lenZ (concat bs)) (index_from o bs).
Proof.
  intros W. induction bs as [|b bs IH]; intros o P; [constructor|]. cbn [index_from concat]. rewrite lenZ_app. constructor.
  - pose proof (lenZ_nonneg _ b). pose proof (lenZ_nonneg _ (concat bs)). destruct b; lia.
  - pose proof (lenZ_nonneg _ b). eapply Forall_impl; [|apply IH; lia]. cbn. intros. lia.
Qed.

Lemma reads_check_then : forall A b (m : io A) c a, b = true -> reads m c a -> reads (_ <-- io_check b ;; m) c a.
Proof. intros A b m c a -> R rest e. exact (R rest e). Qed.

Lemma cstr_name : cstr (firstn 31 (s_fst0 ++ repeat 0 23)) = s_fst0.
Proof. reflexivity. Qed.

Lemma fst_read_file : forall t rest e, fst_storable t ->
  fst_read (mk_file (fst_file t ++ rest) e) = Ok (Some (laid_out t), mk_file rest e).
Proof.
  intros t rest e [SZ [NA [FS FA]]]. revert rest e. change (reads fst_read (fst_file t) (laid_out t)).
  pose proof (total_arcs _ t) as TA. destruct (laid_out_tables t) as [TI TR].
  assert (LS : lenZ (final_ (laid_out t)) = Z.of_nat (length (t_states t))) by (cbn; unfold lenZ; rewrite map_length; reflexivity).
  assert (LI : lenZ (state_idx (laid_out t)) = Z.of_nat (length (t_states t))).
  { rewrite TI. unfold lenZ. rewrite index_from_length. unfold blocks. rewrite map_length. reflexivity. }
  assert (NS : 0 < Z.of_nat (length (t_states t))).
  { unfold number_of_arcs in NA. destruct (t_states t); [cbn in NA; lia|cbn [length]; lia]. }
  unfold sized in SZ.
  assert (F1 : Forall (fits 4) (final_ (laid_out t))).
  { cbn [laid_out final_]. rewrite Forall_forall in *. intros w I. apply in_map_iff in I. destruct I as [st [<- I]]. apply (FA st I). }
  assert (F2 : Forall (fits 4) (state_idx (laid_out t))).
  { rewrite TI. eapply Forall_impl; [|apply index_from_range; lia]. cbn. intros i R. apply fits_4.
    rewrite <- TR, TA in R. lia. }
  assert (F3 : Forall (fits 4) (flat_map arc_words (arcs_ (laid_out t)))).
  { rewrite TR. rewrite Forall_forall in *. intros w I. apply in_flat_map in I. destruct I as [a [I J]].
    apply in_concat in I. destruct I as [bl [I K]]. unfold blocks in I. apply in_map_iff in I. destruct I as [st [<- I]].
    assert (K' : In a (snd st)) by (eapply Permutation_in; [symmetry; apply lsort_perm|exact K]).
    destruct (FA st I) as [_ FB]. rewrite Forall_forall in FB. destruct (FB a K') as [X1 [X2 [X3 X4]]].
    cbn in J. destruct J as [<-|[<-|[<-|[<-|[]]]]]; assumption. }
  unfold fst_read, fst_file. rewrite flat_map_arc. fold (lenZ (final_ (laid_out t))) (lenZ (arcs_ (laid_out t))).
  rewrite LS, TA. change ([112; 107; 58; 58; 102; 115; 116; 95; 48]) with s_fst0.
  rewrite app_assoc.
  apply (reads_bind _ _ _ _ _ _ (s_fst0 ++ repeat 0 23)); [apply reads_read; reflexivity|].
  rewrite cstr_name. apply reads_check_then; [reflexivity|].
  apply (reads_bind _ _ _ _ _ _ (12 + 8 * Z.of_nat (length (t_states t)) + 16 * number_of_arcs t)); [apply reads_word, fits_4; lia|].
  apply (reads_bind _ _ _ _ _ _ (Z.of_nat (length (t_states t)))); [apply reads_word, fits_4; lia|].
  apply (reads_bind _ _ _ _ _ _ (number_of_arcs t)); [apply reads_word, fits_4; lia|].
  apply (reads_bind _ _ _ _ _ _ (start_state (laid_out t))); [apply reads_word; exact FS|].
  apply reads_check_then.
  { rewrite wrap32_id by lia. apply Z.eqb_eq. lia. }
  apply (reads_bind _ _ _ _ _ _ (flat_map word (final_ (laid_out t)))).
  { apply reads_array; try lia. unfold lenZ. rewrite words_length. unfold lenZ in LS. lia. }
  apply (reads_bind _ _ _ _ _ _ (flat_map word (state_idx (laid_out t)))).
  { apply reads_array; try lia. unfold lenZ. rewrite words_length. unfold lenZ in LI. lia. }
  assert (E1 : words (Z.to_nat (Z.of_nat (length (t_states t)))) (flat_map word (final_ (laid_out t))) = final_ (laid_out t)).
  { rewrite Nat2Z.id. rewrite <- (words_word _ F1) at 2. f_equal. unfold lenZ in LS. lia. }
  assert (E2 : words (Z.to_nat (Z.of_nat (length (t_states t)))) (flat_map word (state_idx (laid_out t))) = state_idx (laid_out t)).
  { rewrite Nat2Z.id. rewrite <- (words_word _ F2) at 2. f_equal. unfold lenZ in LI. lia. }
  rewrite E1, E2.
  assert (E3 : arcs_of (Z.to_nat (number_of_arcs t)) (words (4 * Z.to_nat (number_of_arcs t)) (flat_map word (flat_map arc_words (arcs_ (laid_out t)))))
    = arcs_ (laid_out t)).
  { replace (Z.to_nat (number_of_arcs t)) with (length (arcs_ (laid_out t))) by (unfold lenZ in TA; lia).
    rewrite <- arc_words_length, words_word by assumption. apply arcs_of_words. }
  assert (R : laid_out t = mk_fst (start_state (laid_out t)) (final_ (laid_out t)) (state_idx (laid_out t))
    (arcs_of (Z.to_nat (number_of_arcs t)) (words (4 * Z.to_nat (number_of_arcs t)) (flat_map word (flat_map arc_words (arcs_ (laid_out t))))))).
  { rewrite E3. reflexivity. }
  refine (eq_ind_r (fun x => reads _ _ x) _ R).
  apply (reads_last _ _ (io_array 16 (number_of_arcs t)) _ _
    (fun a => mk_fst (start_state (laid_out t)) (final_ (laid_out t)) (state_idx (laid_out t))
      (arcs_of (Z.to_nat (number_of_arcs t)) (words (4 * Z.to_nat (number_of_arcs t)) a)))).
  apply reads_array; try lia. unfold lenZ. rewrite words_length, arc_words_length. unfold lenZ in TA. lia.
Qed.

(** * Damaged files *)
Lemma io_bind_fault : forall A B (m : io A) (k : A -> io B) f x, safe m -> io_bind m k f = Fault x ->
  exists a f1, m f = Ok (Some a, f1) /\ k a f1 = Fault x.
Proof.
  intros A B m k f x S H. unfold io_bind in H. destruct (S f) as [[[a|] f1] E]; rewrite E in H; cbn [bind] in H; [|discriminate].
  exists a, f1. auto.
Qed.

Lemma io_array_fault : forall width n f x, 0 < width -> io_array width n f = Fault x -> n < 0 \/ 2147483647 < width * n.
Proof.
  intros width n f x P H. destruct (Z.ltb_spec n 0) as [L|L]; [left; assumption|right].
  destruct (Z.le_gt_cases (width * n) 2147483647) as [Q|Q]; [exfalso|lia].
  unfold io_array in H. destruct (Z.ltb_spec n 0); [lia|]. rewrite wrap32_id in H by nia. rewrite Z.eqb_refl in H.
  destruct (safe_read (width * n) ltac:(nia) f) as [r E]. rewrite E in H. discriminate.
Qed.

Lemma bind_fault_either : forall A B (m : io A) (k : A -> io B) f x, io_bind m k f = Fault x ->
  m f = Fault x \/ exists a f1, m f = Ok (Some a, f1) /\ k a f1 = Fault x.
Proof.
  intros A B m k f x H. unfold io_bind in H. destruct (m f) as [[[a|] f1]|y] eqn:E; cbn [bind] in H; [right; eauto|discriminate|].
  left. congruence.
Qed.

Lemma fst_read_fault : forall f x, byte_list (f_rest f) -> fst_read f = Fault x ->
  exists name size s a st rest, f_rest f = name ++ word size ++ word s ++ word a ++ word st ++ rest /\
    length name = 32%nat /\ fits 4 s /\ fits 4 a /\ (s < 0 \/ a < 0 \/ 536870912 <= s \/ 134217728 <= a).
Proof.
  intros f x By H. unfold fst_read in H.
  apply io_bind_fault in H; [|apply safe_read; lia]. destruct H as [name [f1 [E1 H]]].
  destruct (accepts_read 32 f name f1 By E1) as [c1 [R1 [_ [-> [_ [L1 _]]]]]].
  assert (B1 : byte_list (f_rest f1)) by (unfold byte_list in *; rewrite R1 in By; apply Forall_app in By; tauto).
  apply io_bind_fault in H; [|apply safe_check]. destruct H as [u [f1' [E1' H]]].
  assert (f1' = f1) by (revert E1'; destruct (str_eqb (cstr (firstn 31 name)) s_fst0); intros E1'; [injection E1' as _ <-; reflexivity|discriminate]).
  subst f1'.
  apply io_bind_fault in H; [|apply safe_int; lia]. destruct H as [size [f2 [E2 H]]].
  destruct (accepts_int 4 ltac:(lia) f1 size f2 B1 E2) as [c2 [R2 [_ [-> _]]]].
  assert (B2 : byte_list (f_rest f2)) by (unfold byte_list in *; rewrite R2 in B1; apply Forall_app in B1; tauto).
  apply io_bind_fault in H; [|apply safe_int; lia]. destruct H as [s [f3 [E3 H]]].
  destruct (accepts_int 4 ltac:(lia) f2 s f3 B2 E3) as [c3 [R3 [_ [-> F3]]]].
  assert (B3 : byte_list (f_rest f3)) by (unfold byte_list in *; rewrite R3 in B2; apply Forall_app in B2; tauto).
  apply io_bind_fault in H; [|apply safe_int; lia]. destruct H as [a [f4 [E4 H]]].
  destruct (accepts_int 4 ltac:(lia) f3 a f4 B3 E4) as [c4 [R4 [_ [-> F4]]]].
  assert (B4 : byte_list (f_rest f4)) by (unfold byte_list in *; rewrite R4 in B3; apply Forall_app in B3; tauto).
  apply io_bind_fault in H; [|apply safe_int; lia]. destruct H as [st [f5 [E5 H]]].
  destruct (accepts_int 4 ltac:(lia) f4 st f5 B4 E5) as [c5 [R5 [_ [-> _]]]].
  apply io_bind_fault in H; [|apply safe_check]. destruct H as [u2 [f5' [_ H]]].
  exists name, size, s, a, st, (f_rest f5). unfold word. rewrite R1, R2, R3, R4, R5.
  split; [reflexivity|]. split; [unfold lenZ in L1; lia|]. split; [assumption|]. split; [assumption|].
  apply bind_fault_either in H. destruct H as [H|[b1 [f6 [_ H]]]]; [apply io_array_fault in H; lia|].
  apply bind_fault_either in H. destruct H as [H|[b2 [f7 [_ H]]]]; [apply io_array_fault in H; lia|].
  apply bind_fault_either in H. destruct H as [H|[b3 [f8 [_ H]]]]; [apply io_array_fault in H; lia|]. discriminate.
Qed.

Lemma fst_read_crash : fst_read (open (s_fst0 ++ repeat 0 23 ++ word 4 ++ word 1 ++ word (-1) ++ word 0 ++ word 0 ++ word 0))
  = Fault Throw.
Proof. reflexivity. Qed.

(** * What the reader gives back *)
Lemma loaded_iterate : forall W (t : transducer W) s, is_state t s -> exists l, iterate_arcs (laid_out t) s = Ok l /\
  Permutation (arcs_at t s) l /\ by_label l /\ forall x, labelled x l = labelled x (arcs_at t s).
Proof.
  intros W t s H. exists (lsort (arcs_at t s)). split; [apply laid_iterate, H|]. split; [apply lsort_perm|].
  split; [apply lsort_sorted|]. intros x. apply labelled_lsort.
Qed.

Lemma file_round_trip : forall t rest e, fst_storable t ->
  exists g, fst_read (mk_file (fst_file t ++ rest) e) = Ok (Some g, mk_file rest e) /\
    start_state g = t_start t /\
    (forall s f l, 0 <= s -> nth_error (t_states t) (Z.to_nat s) = Some (f, l) -> fst_final g s = Ok f) /\
    (forall s, is_state t s -> exists l, iterate_arcs g s = Ok l /\ Permutation (arcs_at t s) l /\ by_label l /\
       forall x, labelled x l = labelled x (arcs_at t s)).
Proof.
  intros t rest e S. exists (laid_out t). split; [apply fst_read_file, S|]. split; [reflexivity|]. split.
  - intros s f l P E. apply (laid_final t s f l P E). destruct S as [SZ _]. unfold sized, number_of_arcs in SZ. lia.
  - intros s H. apply loaded_iterate, H.
Qed.

Lemma file_lookup : forall t rest e g f', fst_storable t ->
  fst_read (mk_file (fst_file t ++ rest) e) = Ok (Some g, f') ->
  forall s x, is_state t s -> get_arc g s x = Ok (hd_error (labelled x (arcs_at t s))).
Proof.
  intros t rest e g f' S E s x H. rewrite fst_read_file in E by assumption. injection E as <- _. apply laid_get, H.
Qed.

(** * The words of a file as weights *)
Lemma tagged_map : forall A B (f : A -> B) l s,
  tagged s (map (fun st => (f (Datatypes.fst st), map (map_arc f) (snd st))) l) =
  map (fun x => (Datatypes.fst x, map_arc f (snd x))) (tagged s l).
Proof.
  intros A B f. induction l as [|[w a] l IH]; intros s; [reflexivity|]. cbn [map tagged Datatypes.fst snd].
  rewrite map_app, IH, !map_map. reflexivity.
Qed.

Lemma insert_map : forall A B (f : A -> B) x l,
  insert (Datatypes.fst x, map_arc f (snd x)) (map (fun x => (Datatypes.fst x, map_arc f (snd x))) l) =
  map (fun x => (Datatypes.fst x, map_arc f (snd x))) (insert x l).
Proof.
  intros A B f x. induction l as [|y l IH]; [reflexivity|]. cbn [map insert]. rewrite IH.
  unfold key_le. cbn [Datatypes.fst snd map_arc input_label]. destruct (_ || _); reflexivity.
Qed.

Lemma laid_out_map : forall A B (f : A -> B) t, laid_out (map_weights f t) = map_fst f (laid_out t).
Proof.
  intros A B f t. unfold laid_out, map_weights, map_fst. cbn [t_start t_states start_state final_ state_idx arcs_].
  assert (E : sorted_arcs (mk_transducer (t_start t) (map (fun st => (f (Datatypes.fst st), map (map_arc f) (snd st))) (t_states t)))
    = map (fun x => (Datatypes.fst x, map_arc f (snd x))) (sorted_arcs t)).
  { unfold sorted_arcs. cbn [t_states]. rewrite tagged_map. induction (tagged 0 (t_states t)) as [|x l IH]; [reflexivity|].
    cbn [map fold_right]. rewrite IH. apply insert_map. }
  rewrite E, !map_map, map_length. f_equal. apply map_ext. intros s.
  assert (G : forall l i, first_index i s (map (fun x : Z * arc A => (Datatypes.fst x, map_arc f (snd x))) l) = first_index i s l).
  { induction l as [|[s' a] l IH]; intros i; [reflexivity|]. cbn [map first_index Datatypes.fst snd]. rewrite IH. reflexivity. }
  apply G.
Qed.

Lemma file_as_weights : forall W (f : Z -> W) t rest e g f', fst_storable t ->
  fst_read (mk_file (fst_file t ++ rest) e) = Ok (Some g, f') -> map_fst f g = laid_out (map_weights f t).
Proof.
  intros W f t rest e g f' S E. rewrite fst_read_file in E by assumption. injection E as <- _. symmetry. apply laid_out_map.
Qed.
