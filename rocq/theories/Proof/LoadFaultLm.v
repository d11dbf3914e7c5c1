(** Which language model files make loading crash. *)
From Coq Require Import ZArith String List Bool Lia.
From Verif.Base Require Import Prelude Lemmas.
From Verif.Model Require Import Util File Binary Arith Vector Formats Fst.
From Verif.Spec Require Import AudioSpec FormatSpec FstSpec LoadFaultSpec.
From Verif.Proof Require Import Loop Binary Formats Fst LoadFault.
Import ListNotations.
Open Scope Z_scope.

(** * What was read *)

Lemma arcs_of_back : forall n w, length w = (4 * n)%nat ->
  flat_map arc_words (arcs_of n w) = w /\ length (arcs_of n w) = n.
Proof.
  induction n as [|n IH]; intros w L.
  - destruct w; [now split|cbn in L; lia].
  - destruct w as [|a [|b [|c [|d w]]]]; cbn [length] in L; try lia. cbn [arcs_of flat_map arc_words app length next_state input_label output_label weight].
    destruct (IH w ltac:(lia)) as (E & El). rewrite E, El. now split.
Qed.

Lemma accepts_array width n : 0 < width -> accepts (io_array width n) (fun c b => c = b /\ byte_list b /\ lenZ b = width * n /\ 0 < n).
Proof.
  intros P f b f' By H. unfold io_array in H. destruct (Z.ltb_spec n 0); [discriminate|].
  destruct (Z.eqb_spec (wrap32 (width * n)) (width * n)) as [E|E].
  - rewrite E in H. destruct (accepts_read (width * n) f b f' By H) as (c & R & Ef & -> & Bb & L & Q).
    exists b. split; [exact R|]. split; [exact Ef|]. split; [reflexivity|]. split; [exact Bb|]. split; [exact L|nia].
  - destruct (_ && _)%bool; discriminate.
Qed.

Lemma fst_read_only f g f' : byte_list (f_rest f) -> fst_read f = Ok (Some g, f') ->
  exists name size, f_rest f = name ++ word size ++ word (Z.of_nat (length (final_ g))) ++ word (Z.of_nat (length (arcs_ g))) ++
      word (start_state g) ++ flat_map word (final_ g) ++ flat_map word (state_idx g) ++ flat_map word (flat_map arc_words (arcs_ g)) ++ f_rest f' /\
    length name = 32%nat /\ length (final_ g) = length (state_idx g) /\ state_idx g <> [] /\
    Forall (fun a => fits 4 (input_label a)) (arcs_ g).
Proof.
  intros By H.
  pose proof (accepts_bind _ _ _ _ _ _ (accepts_read 32) (fun name =>
    accepts_bind _ _ _ _ _ _ (accepts_check (str_eqb (cstr (firstn 31 name)) s_fst0)) (fun _ =>
    accepts_bind _ _ _ _ _ _ (accepts_int 4 ltac:(lia)) (fun size =>
    accepts_bind _ _ _ _ _ _ (accepts_int 4 ltac:(lia)) (fun s =>
    accepts_bind _ _ _ _ _ _ (accepts_int 4 ltac:(lia)) (fun a =>
    accepts_bind _ _ _ _ _ _ (accepts_int 4 ltac:(lia)) (fun st =>
    accepts_bind _ _ _ _ _ _ (accepts_check (wrap32 (12 + s * 8 + a * 16) =? size)) (fun _ =>
    accepts_bind _ _ _ _ _ _ (accepts_array 4 s ltac:(lia)) (fun fins =>
    accepts_bind _ _ _ _ _ _ (accepts_array 4 s ltac:(lia)) (fun idx =>
    accepts_bind _ _ _ _ _ _ (accepts_array 16 a ltac:(lia)) (fun ar =>
    accepts_ret _ (mk_fst st (words (Z.to_nat s) fins) (words (Z.to_nat s) idx)
            (arcs_of (Z.to_nat a) (words (4 * Z.to_nat a) ar)))))))))))))) as A.
  destruct (A f g f' By H) as (c & R & _ & Q). clear A H.
  destruct Q as (c1 & d1 & name & -> & (-> & _ & Ln & _) & Q).
  destruct Q as (c2 & d2 & u & -> & (-> & _) & Q).
  destruct Q as (c3 & d3 & size & -> & (-> & _) & Q).
  destruct Q as (c4 & d4 & s & -> & (-> & _) & Q).
  destruct Q as (c5 & d5 & a & -> & (-> & _) & Q).
  destruct Q as (c6 & d6 & st & -> & (-> & _) & Q).
  destruct Q as (c7 & d7 & u' & -> & (-> & _) & Q).
  destruct Q as (c8 & d8 & fins & -> & (-> & Bf & Lf & Ps) & Q).
  destruct Q as (c9 & d9 & idx & -> & (-> & Bi & Li & _) & Q).
  destruct Q as (c10 & d10 & ar & -> & (-> & Ba & La & Pa) & Q & ->). subst d10.
  unfold lenZ in *.
  destruct (word_words (Z.to_nat s) fins Bf ltac:(lia)) as (F1 & _ & F3).
  destruct (word_words (Z.to_nat s) idx Bi ltac:(lia)) as (I1 & _ & I3).
  destruct (word_words (4 * Z.to_nat a) ar Ba ltac:(lia)) as (A1 & A2 & A3).
  destruct (arcs_of_back (Z.to_nat a) (words (4 * Z.to_nat a) ar) A3) as (B1 & B2).
  exists name, size. cbn [start_state final_ state_idx arcs_]. split; [|split; [|split; [|split]]].
  - rewrite B1, A1, F1, I1, F3, B2, !Z2Nat.id by lia. rewrite R. unfold word. rewrite <- !app_assoc. reflexivity.
  - lia.
  - congruence.
  - intros X. rewrite X in I3. cbn in I3. lia.
  - rewrite <- B1 in A2. clear - A2. induction (arcs_of (Z.to_nat a) (words (4 * Z.to_nat a) ar)) as [|x l IH]; [constructor|].
    cbn [flat_map arc_words app] in A2. inversion A2 as [|? ? _ A3]; subst. inversion A3 as [|? ? H A4]; subst.
    inversion A4 as [|? ? _ A5]; subst. inversion A5; subst. constructor; [exact H|]. now apply IH.
Qed.

(** * The table of the first state *)

Lemma for_each_fault A S (body : S -> A -> res S) : forall l s x, for_each l body s = Fault x ->
  exists a s', In a l /\ body s' a = Fault x.
Proof.
  induction l as [|a l IH]; intros s x H; [discriminate|]. cbn in H. destruct (body s a) as [s'|y] eqn:E; cbn [bind] in H.
  - destruct (IH s' x H) as (b & s2 & J & Q). exists b, s2. split; [now right|exact Q].
  - injection H as <-. exists a, s. split; [now left|exact E].
Qed.

Lemma for_each_app A S (body : S -> A -> res S) : forall l1 l2 s,
  for_each (l1 ++ l2) body s = (s' <- for_each l1 body s ;; for_each l2 body s').
Proof.
  induction l1 as [|a l1 IH]; intros l2 s; [reflexivity|]. cbn. destruct (body s a) as [s'|]; [|reflexivity]. cbn [bind]. apply IH.
Qed.

Lemma first_end_next after n : first_end after n (next_index after n).
Proof.
  induction after as [|i after IH]; cbn [next_index]; [right; split; [constructor|reflexivity]|].
  destruct (Z.ltb_spec 0 i).
  - left. exists [], after. split; [reflexivity|]. split; [constructor|assumption].
  - destruct IH as [(u & r & E & F & P)|(F & E)].
    + left. exists (i :: u), r. split; [cbn [app]; now rewrite <- E|]. split; [constructor; [lia|exact F]|exact P].
    + right. split; [constructor; [lia|exact F]|exact E].
Qed.

Section Bucket.
Context {W : Type}.
Variable g : fst W.
Variable first : Z.
Variable after : list Z.
Hypothesis E : state_idx g = first :: after.

Definition last : Z := next_index after (lenZ (arcs_ g)).
Definition wrong (i : Z) : bool :=
  match nth_error (arcs_ g) (Z.to_nat i) with
  | None => true
  | Some a => (input_label a <? 0) || (2147483647 <=? input_label a)
  end.

Lemma iterate_first l : iterate_arcs g 0 = Ok l ->
  forall a, In a l -> 0 <= first /\ exists i, first <= i < last /\ nth_error (arcs_ g) (Z.to_nat i) = Some a.
Proof.
  unfold iterate_arcs, count_arcs. rewrite E. cbn [getZ]. unfold getZ at 1 2. cbn [Z.ltb Z.compare Z.to_nat nth_error].
  unfold lenZ at 1. cbn [length]. destruct (Z.ltb_spec 0 (Z.of_nat (S (length after)))) as [_|?]; [|lia]. cbn [Z.leb Z.compare andb check bind].
  change (skipn (Z.to_nat (0 + 1)) (first :: after)) with after. fold last.
  destruct (Z.ltb_spec first 0) as [N|N]; cbn [bind].
  - intros H a J. cbn in H. injection H as <-. destruct J.
  - intros H a0 J0. split; [exact N|]. revert a0 J0. destruct (Z.leb_spec 0 (last - first)) as [P|P].
    2: { intros a J. unfold for_up in H. replace (Z.to_nat (last - first - 0)) with O in H by lia. cbn in H. injection H as <-. destruct J. }
    assert (G : forall n l, (Z.of_nat n <= last - first) -> for_up 0 (Z.of_nat n) (fun l i => a <- getZ (arcs_ g) (first + i) ;; Ok (l ++ [a])) [] = Ok l ->
      forall a, In a l -> exists i, first <= i < last /\ nth_error (arcs_ g) (Z.to_nat i) = Some a).
    { induction n as [|n IH]; intros l' L H' a J.
      - cbn in H'. injection H' as <-. destruct J.
      - rewrite (for_up_app _ _ 0 (Z.of_nat n) (Z.of_nat (S n))) in H' by lia.
        destruct (for_up 0 (Z.of_nat n) _ []) as [l1|] eqn:Q; [|discriminate]. cbn [bind] in H'.
        unfold for_up in H'. replace (Z.to_nat (Z.of_nat (S n) - Z.of_nat n)) with 1%nat in H' by lia. cbn in H'.
        unfold getZ in H'. destruct (Z.ltb_spec (first + Z.of_nat n) 0); [lia|].
        destruct (nth_error (arcs_ g) (Z.to_nat (first + Z.of_nat n))) as [b|] eqn:Nb; [|discriminate]. cbn [bind] in H'.
        injection H' as <-. apply in_app_or in J. destruct J as [J|[<-|[]]].
        + apply (IH l1 ltac:(lia) eq_refl a J).
        + exists (first + Z.of_nat n). split; [lia|exact Nb]. }
    intros a J. apply (G (Z.to_nat (last - first)) l); [lia| |exact J]. rewrite Z2Nat.id by lia. exact H.
Qed.

Lemma bucket_fault x : init_bucket g = Fault x ->
  x = Undef /\ 0 <= first /\ exists i, first <= i < last /\ wrong i = true.
Proof.
  intros H. unfold init_bucket in H. destruct (iterate_arcs g 0) as [l|y] eqn:I; cbn [bind] in H.
  - assert (M : forall l m, m <= fold_left (fun m (a : arc W) => if m <? input_label a then input_label a else m) l m /\
        (forall a, In a l -> input_label a <= fold_left (fun m (a : arc W) => if m <? input_label a then input_label a else m) l m) /\
        (fold_left (fun m (a : arc W) => if m <? input_label a then input_label a else m) l m = m \/
         exists a, In a l /\ fold_left (fun m (a : arc W) => if m <? input_label a then input_label a else m) l m = input_label a)).
    { clear. induction l as [|b l IH]; intros m; cbn [fold_left].
      - split; [lia|]. split; [intros a []|now left].
      - destruct (IH (if m <? input_label b then input_label b else m)) as (A & B & C).
        destruct (Z.ltb_spec m (input_label b)).
        + split; [lia|]. split.
          * intros a [<-|J]; [exact A|now apply B].
          * right. destruct C as [C|(a & J & C)]; [exists b; split; [now left|exact C]|exists a; split; [now right|exact C]].
        + split; [exact A|]. split.
          * intros a [<-|J]; [lia|now apply B].
          * destruct C as [C|(a & J & C)]; [now left|right; exists a; split; [now right|exact C]]. }
    destruct (M l 0) as (A & B & C). set (m := fold_left _ l 0) in *. clearbody m.
    assert (X : exists a, In a l /\ (input_label a < 0 \/ 2147483647 <= input_label a) /\ x = Undef).
    { destruct (in_int32 (m + 1)) eqn:Q; cbn [check bind] in H.
      - assert (K : forall l' b, (forall a, In a l' -> In a l) -> Z.of_nat (length b) = m + 1 ->
            for_each l' (fun b a => setZ b (input_label a) (Some a)) b = Fault x ->
            exists a, In a l /\ (input_label a < 0 \/ 2147483647 <= input_label a) /\ x = Undef).
        { induction l' as [|a l' IH]; intros b S L H'; [discriminate|]. cbn [for_each] in H'.
          destruct (setZ b (input_label a) (Some a)) as [b'|y] eqn:Z; cbn [bind] in H'.
          - apply (IH b'); [intros c J; apply S; now right| |exact H']. unfold setZ in Z. destruct (_ || _); [discriminate|].
            injection Z as <-. now rewrite upd_length.
          - injection H' as <-. exists a. split; [apply S; now left|]. unfold setZ in Z.
            destruct (Z.ltb_spec (input_label a) 0); cbn [orb] in Z; [split; [now left|congruence]|].
            specialize (B a (S a (or_introl eq_refl))). destruct (Z.leb_spec (Z.of_nat (length b)) (input_label a)); [lia|discriminate]. }
        apply (K l (repeat None (Z.to_nat (m + 1)))); [auto| |exact H]. rewrite repeat_length. lia.
      - injection H as <-. destruct C as [->|(a & J & ->)]; [discriminate|]. exists a. split; [exact J|]. split; [|reflexivity].
        unfold in_int32, int_min, int_max in Q. apply andb_false_iff in Q. destruct Q as [Q|Q]; apply Z.leb_gt in Q; lia. }
    destruct X as (a & J & L & ->). destruct (iterate_first l I a J) as (P & i & R & Na). split; [reflexivity|]. split; [exact P|].
    exists i. split; [exact R|]. unfold wrong. rewrite Na. apply orb_true_iff. destruct L; [left|right]; lia.
  - injection H as <-. unfold iterate_arcs, count_arcs in I. rewrite E in I. unfold getZ at 1 2 in I.
    cbn [Z.ltb Z.compare Z.to_nat nth_error] in I. unfold lenZ at 1 in I. cbn [length] in I.
    destruct (Z.ltb_spec 0 (Z.of_nat (S (length after)))); [|lia]. cbn [Z.leb Z.compare andb check bind] in I.
    change (skipn (Z.to_nat (0 + 1)) (first :: after)) with after in I. fold last in I.
    destruct (Z.ltb_spec first 0) as [N|N]; cbn [bind] in I; [discriminate|].
    unfold for_up in I. apply for_each_fault in I. destruct I as (i & s & J & Q).
    assert (R : 0 <= i < last - first).
    { assert (S : forall n a i, In i (seqZ a n) -> a <= i < a + Z.of_nat n).
      { clear. induction n as [|n IH]; intros a i []; [lia|]. apply IH in H. lia. }
      apply S in J. lia. }
    unfold getZ in Q. destruct (Z.ltb_spec (first + i) 0); [lia|].
    destruct (nth_error (arcs_ g) (Z.to_nat (first + i))) eqn:Nb; cbn [bind] in Q; [discriminate|]. injection Q as <-.
    split; [reflexivity|]. split; [exact N|]. exists (first + i). split; [lia|]. unfold wrong. now rewrite Nb.
Qed.
End Bucket.

Lemma first_state_fault W (g0 : fst Z) (g : fst W) content f' x : byte_list content -> fst_read (open content) = Ok (Some g0, f') ->
  state_idx g = state_idx g0 -> Forall2 (fun a b => input_label a = input_label b) (arcs_ g) (arcs_ g0) ->
  init_bucket g = Fault x -> odd_first_state content /\ x = Undef.
Proof.
  intros By R Es Ea H. destruct (fst_read_only (open content) g0 f' By R) as (name & size & C & Ln & L & N & F).
  destruct (state_idx g0) as [|first after] eqn:Ei; [congruence|].
  destruct (bucket_fault g first after Es x H) as (-> & P & i & I & Wr). split; [|reflexivity].
  assert (La : length (arcs_ g) = length (arcs_ g0)) by (clear - Ea; induction Ea; cbn; congruence).
  exists name, size, (start_state g0), (final_ g0), first, after, (arcs_ g0), (f_rest f'), (last g after), i.
  split; [|split; [exact Ln|split; [exact L|split; [exact P|split; [|split; [exact I|]]]]]].
  - rewrite flat_map_arc. exact C.
  - unfold last. rewrite <- La. apply first_end_next.
  - unfold wrong in Wr. destruct (nth_error (arcs_ g) (Z.to_nat i)) as [a|] eqn:Na.
    + right. assert (X : exists b, nth_error (arcs_ g0) (Z.to_nat i) = Some b /\ input_label a = input_label b).
      { clear - Ea Na. revert Na. generalize (Z.to_nat i). induction Ea as [|a0 b0 l l' Hab Ea IH]; intros [|n] Na; try discriminate.
        - injection Na as ->. exists b0. now split.
        - apply (IH n Na). }
      destruct X as (b & Nb & X). exists b. split; [exact Nb|]. rewrite Forall_forall in F.
      specialize (F b (nth_error_In _ _ Nb)). cbn beta in F. apply fits_4 in F. rewrite <- X in F |- *.
      apply orb_true_iff in Wr. destruct Wr as [Wr|Wr]; [apply Z.ltb_lt in Wr|apply Z.leb_le in Wr]; lia.
    + left. apply nth_error_None in Na. lia.
Qed.
