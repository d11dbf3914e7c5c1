(** Programs on parts of vectors. *)
From Coq Require Import ZArith List Bool Lia.
From Verif.Base Require Import Prelude Lemmas.
From Verif.Model Require Import Arith Vector Fbank Nnet Views.
From Verif.Spec Require Import ViewSpec.
From Verif.Proof Require Loop.
From Verif.Proof Require Import Views.
Import ListNotations.
Open Scope Z_scope.

Section Step.
Context {F : Type}.
Variable O : fops F.
Variable f_pow : F -> F -> F.
Variable f_one : F -> bool.
Implicit Types m : list (list F).

Lemma set_ok m p x : inside m p -> part_set m p x = Ok (replaced m p (repeat x (length (contents m p)))).
Proof.
  intros H. pose proof (contents_len m p H) as L. unfold part_set. apply loop; [exact H|unfold lenZ; rewrite repeat_length; exact L|].
  intros k y K E. assert (y = x) as -> by (apply nth_error_In, repeat_spec in E; exact E).
  apply wr_next; [exact H| |lia]. symmetry. apply (first_len _ (p_dim p)); [|lia]. unfold lenZ. rewrite repeat_length. exact L.
Qed.

Lemma zero_ok m p : inside m p -> part_zero O m p = Ok (replaced m p (repeat (f_zero O) (length (contents m p)))).
Proof. intros H. unfold part_zero. assert (D : 0 <= p_dim p) by apply H. apply Z.leb_le in D. rewrite D. cbn [check bind]. now apply set_ok. Qed.

Lemma log_ok m p : inside m p -> forallb (f_nonneg O) (contents m p) = true -> part_log O m p = Ok (replaced m p (map (f_log O) (contents m p))).
Proof.
  intros H A. apply each_ok; [exact H|unfold lenZ; rewrite map_length; now apply contents_len|].
  intros k x E. exists (f_log O x). split; [|now apply map_nth_error]. rewrite forallb_forall in A. rewrite A; [reflexivity|].
  now apply nth_error_In in E.
Qed.

Lemma find_first A (t : A -> bool) l : forallb t l = false ->
  exists k x, nth_error l k = Some x /\ t x = false /\ forall j y, (j < k)%nat -> nth_error l j = Some y -> t y = true.
Proof.
  induction l as [|a l IH]; intros E; [discriminate|]. cbn in E. destruct (t a) eqn:T; cbn in E.
  - destruct (IH E) as (k & x & N & Tx & B). exists (S k), x. split; [exact N|]. split; [exact Tx|].
    intros [|j] y J N'; [now injection N' as <-|]. apply (B j); [lia|exact N'].
  - exists 0%nat, a. split; [reflexivity|]. split; [exact T|]. lia.
Qed.

Lemma log_fails m p : inside m p -> forallb (f_nonneg O) (contents m p) = false -> part_log O m p = Fault Assert.
Proof.
  intros H A. destruct (find_first _ _ _ A) as (k & x & N & T & B). pose proof (contents_len m p H) as L.
  assert (K : (k < length (contents m p))%nat) by (apply nth_error_Some; congruence). unfold lenZ in L.
  set (vals := map (f_log O) (contents m p)). assert (Lv : lenZ vals = p_dim p) by (unfold lenZ, vals; rewrite map_length; exact L).
  unfold part_log, each. rewrite (Loop.for_up_app _ _ 0 (Z.of_nat k)) by lia.
  rewrite (loop_to m p vals _ (Z.of_nat k) H Lv); [|lia|].
  - cbn [bind]. apply up_fault; [lia|]. rewrite rd_old by (auto; lia).
    assert (R : rd m p (Z.of_nat k) = Ok x) by (apply rd_contents; [exact H|lia|now rewrite Nat2Z.id]). rewrite R. cbn [bind]. now rewrite T.
  - intros j y J E. destruct (contents_at m p j H ltac:(lia)) as (a & R & C). rewrite rd_old, R by (auto; lia). cbn [bind].
    rewrite (B (Z.to_nat j) a) by (auto; lia). cbn [check bind]. assert (y = f_log O a) as ->.
    { apply (map_nth_error (f_log O)) in C. unfold vals in E. congruence. }
    apply wr_next; [exact H| |lia]. symmetry. apply (first_len _ (p_dim p)); [exact Lv|lia].
Qed.

Lemma filter_snoc A (t : A -> bool) l x : filter t (l ++ [x]) = filter t l ++ (if t x then [x] else []).
Proof. induction l as [|a l IH]; cbn; [now destruct (t x)|]. rewrite IH. now destruct (t a). Qed.

Lemma floor_ok m p x : inside m p -> part_floor O m p x =
  Ok (replaced m p (map (fun y => if f_lt O y x then x else y) (contents m p)), lenZ (filter (fun y => f_lt O y x) (contents m p))).
Proof.
  intros H. pose proof (contents_len m p H) as L. assert (D : 0 <= p_dim p) by apply H.
  set (g := fun y => if f_lt O y x then x else y). set (vals := map g (contents m p)).
  assert (Lv : lenZ vals = p_dim p) by (unfold lenZ, vals; rewrite map_length; exact L). unfold part_floor.
  match goal with |- for_up 0 _ ?b _ = _ =>
    destruct (Loop.for_up_inv _ (fun k s => s = (replaced m p (firstn (Z.to_nat k) vals), lenZ (filter (fun y => f_lt O y x) (firstn (Z.to_nat k) (contents m p)))))
      b 0 (p_dim p) (m, 0)) as (s & E & ->) end.
  - exact D.
  - cbn. now rewrite replaced_none.
  - intros k s K ->. destruct (contents_at m p k H K) as (a & R & C). rewrite rd_old, R by (auto; lia). cbn [bind].
    assert (V : nth_error vals (Z.to_nat k) = Some (g a)) by (now apply map_nth_error).
    assert (Fl := first_len vals _ k Lv ltac:(lia)).
    replace (Z.to_nat (k + 1)) with (S (Z.to_nat k)) by lia. rewrite (first_step _ _ _ _ V), (first_step _ _ _ _ C), filter_snoc.
    destruct (f_lt O a x) eqn:Lt.
    + assert (Ga : g a = x) by (unfold g; now rewrite Lt). rewrite wr_next by (auto; lia). cbn [bind]. eexists. split; [reflexivity|].
      rewrite Ga. f_equal. unfold lenZ. rewrite app_length. cbn [length]. lia.
    + assert (Ga : g a = a) by (unfold g; now rewrite Lt). eexists. split; [reflexivity|]. rewrite Ga, app_nil_r. f_equal. symmetry.
      apply (replaced_next m p _ k); auto; lia.
  - etransitivity; [exact E|]. rewrite !firstn_all2 by (unfold lenZ in L, Lv; lia). reflexivity.
Qed.

Lemma get_rd m p k : 0 <= k < p_dim p -> part_get m p k = rd m p k.
Proof. intros K. unfold part_get. destruct (Z.ltb_spec k (p_dim p)); [reflexivity|lia]. Qed.
Lemma put_wr m p k (x : F) : 0 <= k < p_dim p -> part_put m p k x = wr m p k x.
Proof. intros K. unfold part_put. destruct (Z.ltb_spec k (p_dim p)); [reflexivity|lia]. Qed.

Lemma each_in m p g : inside m p -> for_up 0 (p_dim p) (fun m i => x <- part_get m p i ;; part_put m p i (g x)) m = Ok (replaced m p (map g (contents m p))).
Proof.
  intros H. pose proof (contents_len m p H) as L. assert (Lv : lenZ (map g (contents m p)) = p_dim p) by (unfold lenZ; rewrite map_length; exact L).
  apply loop; [exact H|exact Lv|]. intros k x K E. destruct (contents_at m p k H K) as (a & R & C).
  rewrite get_rd, rd_old, R by (auto; lia). cbn [bind]. apply (map_nth_error g) in C. rewrite C in E. injection E as <-.
  rewrite put_wr by exact K. apply wr_next; [exact H| |lia]. symmetry. apply (first_len _ (p_dim p)); [exact Lv|lia].
Qed.

Lemma softmax_ok m p : inside m p ->
  let es := map (f_expf O) (contents m p) in
  part_softmax O m p = Ok (replaced m p (map (fun e => f_div O e (sum O es)) es)).
Proof.
  intros H es. pose proof (contents_len m p H) as L. assert (D : 0 <= p_dim p) by apply H.
  assert (Le : lenZ es = p_dim p) by (unfold lenZ, es; rewrite map_length; exact L). unfold part_softmax.
  match goal with |- bind (for_up 0 _ ?b _) _ = _ =>
    destruct (Loop.for_up_inv _ (fun k s => s = (replaced m p (firstn (Z.to_nat k) es), sum O (firstn (Z.to_nat k) es))) b 0 (p_dim p) (m, f_zero O)) as (s & E & ->) end.
  - exact D.
  - cbn. now rewrite replaced_none.
  - intros k s K ->. destruct (contents_at m p k H K) as (a & R & C). rewrite get_rd, rd_old, R by (auto; lia). cbn [bind]. cbn zeta.
    assert (V : nth_error es (Z.to_nat k) = Some (f_expf O a)) by (now apply map_nth_error).
    assert (Fl := first_len es _ k Le ltac:(lia)). rewrite put_wr, wr_next by (auto; lia). cbn [bind].
    eexists. split; [reflexivity|]. replace (Z.to_nat (k + 1)) with (S (Z.to_nat k)) by lia. rewrite (first_step _ _ _ _ V).
    unfold sum. now rewrite fold_left_app.
  - match goal with |- bind ?x ?k = _ => etransitivity; [exact (f_equal (fun r => bind r k) E)|] end. cbn [bind].
    rewrite firstn_all2 by (unfold lenZ in Le; lia).
    assert (H' := inside_replaced m p es p H ltac:(lia) H). rewrite (each_in _ _ (fun x => f_div O x (sum O es)) H').
    rewrite contents_replaced by assumption. f_equal. rewrite !replaced_block.
    rewrite nth_upd by apply H. rewrite upd_upd. f_equal. apply list_ext. intros k.
    pose proof (fits m p es H ltac:(lia)) as Ft.
    rewrite !splice_nth; rewrite ?splice_len; rewrite ?map_length; try lia.
    destruct (_ && _); reflexivity.
Qed.

Lemma log_softmax_ok m p : inside m p ->
  part_log_softmax O m p = Ok (replaced m p (map (fun x => f_sub O x (f_log O (sum O (map (f_exp O) (contents m p))))) (contents m p))).
Proof.
  intros H. unfold part_log_softmax.
  rewrite (read_fold m p p (fun s x _ => f_add O s (f_exp O x))); [|exact H|exact H|reflexivity|].
  - cbn [bind]. cbn zeta. rewrite each_in by exact H. repeat f_equal. unfold sum.
    assert (Q : forall l z, fold_left (fun s (xy : F * F) => f_add O s (f_exp O (fst xy))) (combine l l) z = fold_left (f_add O) (map (f_exp O) l) z).
    { induction l as [|a l IH]; intros z; [reflexivity|]. cbn. apply IH. }
    now rewrite Q.
  - intros s k x y K R _. rewrite get_rd, R by exact K. reflexivity.
Qed.

(** *** Two parts *)

Lemma overlap_apart p q : p_dim p = p_dim q -> apart p q -> overlap p q = false.
Proof.
  intros D A. unfold overlap. destruct (Nat.eqb_spec (p_block p) (p_block q)); cbn [andb]; [|reflexivity].
  destruct (Z.ltb_spec (p_off p) (p_off q + p_dim q)); cbn [andb]; [|reflexivity].
  destruct (Z.ltb_spec (p_off q) (p_off p + p_dim p)); cbn [andb]; [|reflexivity]. unfold apart in A. lia.
Qed.

(** While [p] is filled up to [k], element [k] of [q] is the old one. *)
Lemma rd_ahead m p q (vals : list F) k : inside m p -> inside m q -> p_dim p = p_dim q -> lenZ vals = p_dim p -> 0 <= k < p_dim p ->
  apart p q \/ p_off p <= p_off q -> rd (replaced m p (firstn (Z.to_nat k) vals)) q k = rd m q k.
Proof.
  intros H Hq D L K A. assert (Fl := first_len vals _ k L ltac:(lia)). apply rd_other; auto; try lia. unfold apart in A. lia.
Qed.

Lemma pairs_ok m p q g body : inside m p -> inside m q -> p_dim p = p_dim q -> apart p q \/ p_off p <= p_off q ->
  (forall s k x y, 0 <= k < p_dim p -> rd s p k = Ok x -> rd s q k = Ok y -> body s k = wr s p k (g x y)) ->
  for_up 0 (p_dim p) body m = Ok (replaced m p (pairwise g (contents m p) (contents m q))).
Proof.
  intros H Hq D A B. pose proof (contents_len m p H) as L. pose proof (contents_len m q Hq) as Lq.
  assert (Lv : lenZ (pairwise g (contents m p) (contents m q)) = p_dim p) by (unfold lenZ in *; rewrite pair_len by lia; lia).
  apply loop; [exact H|exact Lv|]. intros k v K E.
  destruct (contents_at m p k H K) as (x & R & C). destruct (contents_at m q k Hq ltac:(lia)) as (y & R' & C').
  rewrite (pair_nth g _ _ _ _ _ C C') in E. injection E as <-.
  rewrite (B _ k x y K); [|rewrite rd_old by auto; exact R|rewrite rd_ahead by auto; exact R'].
  apply wr_next; [exact H| |lia]. symmetry. apply (first_len _ (p_dim p)); [exact Lv|lia].
Qed.

Lemma pairwise_second (l l' : list F) : length l = length l' -> pairwise (fun _ y => y) l l' = l'.
Proof. revert l'. induction l as [|a l IH]; intros [|b l'] E; cbn in *; try discriminate; [reflexivity|]. unfold pairwise in IH. now rewrite IH by congruence. Qed.

Lemma same_len m p q : inside m p -> inside m q -> Nat.eqb (length (contents m p)) (length (contents m q)) = (p_dim p =? p_dim q).
Proof.
  intros H Hq. pose proof (contents_len m p H) as L. pose proof (contents_len m q Hq) as Lq. unfold lenZ in *.
  destruct (Nat.eqb_spec (length (contents m p)) (length (contents m q))), (Z.eqb_spec (p_dim p) (p_dim q)); auto; lia.
Qed.

Lemma replaced_at m p q : inside m p -> p_block p = p_block q -> p_off p = p_off q -> p_dim p = p_dim q -> replaced m p (contents m q) = m.
Proof. intros H B1 B2 B3. rewrite <- (replaced_contents m p H) at 3. f_equal. unfold contents. now rewrite B1, B2, B3. Qed.

Ltac good := match goal with |- _ /\ _ => split; [reflexivity|]; let E := fresh "E" in intros ? ? E; injection E as <- <-; cbn [Datatypes.fst Datatypes.snd] end.

Notation vstep := (vstep O f_pow f_one).
Notation does := (does O f_pow f_one).

Theorem step_fair m ps c : Forall (inside m) ps -> fair ps c ->
  vstep (m, ps) c = does (m, ps) c /\ forall m' ps' a, does (m, ps) c = Ok ((m', ps'), a) -> Forall (inside m') ps'.
Proof.
  intros I Fr.
  assert (At : forall i p, nth_error ps i = Some p -> inside m p).
  { intros i p E. apply nth_error_In in E. now apply (proj1 (Forall_forall _ _) I). }
  assert (Keep : forall p l, inside m p -> lenZ l = p_dim p -> Forall (inside (replaced m p l)) ps).
  { intros p l Hp L. apply Forall_forall. intros q J. apply inside_replaced; [exact Hp|lia|]. now apply (proj1 (Forall_forall _ _) I). }
  assert (Lc : forall p, inside m p -> lenZ (contents m p) = p_dim p) by (intros; now apply contents_len).
  assert (Lm : forall p (g : F -> F), inside m p -> lenZ (map g (contents m p)) = p_dim p) by (intros; unfold lenZ; rewrite map_length; now apply Lc).
  (* the calls with one part *)
  assert (One : forall i (f : part -> res (list (list F))),
    (forall p, inside m p -> match changed O f_pow (contents m p) c with Ok (l, a) => f p = Ok (replaced m p l) /\ a = VDone /\ lenZ l = p_dim p | Fault e => f p = Fault e end) ->
    let spec := match nth_error ps i with None => Fault Undef | Some p =>
       match changed O f_pow (contents m p) c with Fault e => Fault e | Ok (l, a) => Ok ((replaced m p l, ps), a) end end in
    bind (the_part ps i) (fun p => vdone ps (f p)) = spec /\ forall m' ps' a, spec = Ok ((m', ps'), a) -> Forall (inside m') ps').
  { intros i f Hf. unfold the_part. destruct (nth_error ps i) as [p|] eqn:E; cbn [bind]; [|split; [reflexivity|discriminate]].
    specialize (Hf p (At i p E)). destruct (changed O f_pow (contents m p) c) as [[l a]|e].
    - destruct Hf as (-> & -> & L). cbn [vdone bind]. split; [reflexivity|]. intros m' ps' a [= <- <- <-]. apply Keep; [now apply (At i)|exact L].
    - rewrite Hf. split; [reflexivity|discriminate]. }
  (* the calls with two parts *)
  assert (Two : forall i j (f : part -> part -> res (list (list F))),
    (forall p q, nth_error ps i = Some p -> nth_error ps j = Some q -> inside m p -> inside m q ->
       match changed2 O f_one (contents m p) (contents m q) c with Ok (l, a) => f p q = Ok (replaced m p l) /\ a = VDone /\ lenZ l = p_dim p | Fault e => f p q = Fault e end) ->
    let spec := match nth_error ps i, nth_error ps j with Some p, Some q =>
       match changed2 O f_one (contents m p) (contents m q) c with Fault e => Fault e | Ok (l, a) => Ok ((replaced m p l, ps), a) end | _, _ => Fault Undef end in
    bind (the_part ps i) (fun p => bind (the_part ps j) (fun q => vdone ps (f p q))) = spec /\ forall m' ps' a, spec = Ok ((m', ps'), a) -> Forall (inside m') ps').
  { intros i j f Hf. unfold the_part. destruct (nth_error ps i) as [p|] eqn:E; cbn [bind]; [|split; [reflexivity|discriminate]].
    destruct (nth_error ps j) as [q|] eqn:E'; cbn [bind]; [|split; [reflexivity|discriminate]].
    specialize (Hf p q eq_refl eq_refl (At i p E) (At j q E')). destruct (changed2 O f_one (contents m p) (contents m q) c) as [[l a]|e].
    - destruct Hf as (-> & -> & L). cbn [vdone bind]. split; [reflexivity|]. intros m' ps' a [= <- <- <-]. apply Keep; [now apply (At i)|exact L].
    - rewrite Hf. split; [reflexivity|discriminate]. }
  destruct c as [i o l|i k|i k x|i x|i|i x|i x|i x|i|i x|i|i|i j|i j|i j|i x j]; cbn [Views.vstep ViewSpec.does].
  - (* Range *)
    unfold the_part. destruct (nth_error ps i) as [p|] eqn:E; cbn [bind]; [|split; [reflexivity|discriminate]].
    assert (Hp := At i p E). destruct Fr as (F1 & F2 & F3). rewrite Lc by exact Hp. unfold part_range.
    assert (N : in_int32 (o + l) = true) by (unfold in_int32, int_min; apply andb_true_iff; split; apply Z.leb_le; unfold int_max in *; lia).
    rewrite N. cbn [check bind]. destruct (Z.leb_spec (o + l) (p_dim p)) as [G|G]; cbn [check bind]; [|split; [reflexivity|discriminate]].
    rewrite (block _ _ Hp). destruct Hp as (P1 & P2 & P3 & P4).
    assert (T : (0 <=? p_off p + o) && (p_off p + o <=? lenZ (nth (p_block p) m [])) = true) by (apply andb_true_iff; split; apply Z.leb_le; lia).
    rewrite T. cbn [check bind]. split; [reflexivity|]. intros m' ps' a [= <- <- <-]. apply Forall_app. split; [exact I|]. constructor; [|constructor].
    repeat split; cbn; try lia.
  - (* operator() *)
    unfold the_part. destruct (nth_error ps i) as [p|] eqn:E; cbn [bind]; [|split; [reflexivity|discriminate]].
    assert (Hp := At i p E). cbn [fair] in Fr. cbn [changed]. destruct (Z.lt_ge_cases k (p_dim p)) as [G|G].
    + destruct (contents_at m p k Hp ltac:(lia)) as (x & R & C). rewrite get_rd, R, C by lia. cbn [bind].
      rewrite replaced_contents by exact Hp. split; [reflexivity|]. intros m' ps' a [= <- <- <-]. exact I.
    + unfold part_get. destruct (Z.ltb_spec k (p_dim p)); [lia|]. cbn [check bind].
      specialize (Lc p Hp). unfold lenZ in Lc. rewrite (proj2 (nth_error_None _ _)) by lia. split; [reflexivity|discriminate].
  - apply One. intros p Hp. cbn [changed fair] in *. destruct (Z.lt_ge_cases k (p_dim p)) as [G|G].
    + destruct (contents_at m p k Hp ltac:(lia)) as (y & R & C). rewrite C. split; [|split; [reflexivity|unfold lenZ; rewrite upd_length; now apply Lc]].
      rewrite put_wr by lia. unfold wr. rewrite (block _ _ Hp). destruct Hp as (P1 & P2 & P3 & P4). unfold setZ.
      assert (T : (p_off p + k <? 0) || (Z.of_nat (length (nth (p_block p) m [])) <=? p_off p + k) = false).
      { unfold lenZ in P4. apply orb_false_iff. split; [apply Z.ltb_ge|apply Z.leb_gt]; lia. }
      rewrite T. cbn [bind]. f_equal. rewrite replaced_block. f_equal. apply list_ext. intros n.
      assert (Hp : inside m p) by (repeat split; assumption). specialize (Lc p Hp). unfold lenZ in Lc, P4.
      rewrite nth_error_upd, splice_nth, upd_length by (rewrite upd_length; lia).
      destruct (Nat.leb_spec (Z.to_nat (p_off p)) n) as [G1|G1]; cbn [andb].
      * destruct (Nat.ltb_spec n (Z.to_nat (p_off p) + length (contents m p))) as [G2|G2].
        -- rewrite nth_error_upd. destruct (Nat.eqb_spec (Z.to_nat (p_off p + k)) n) as [<-|N1].
           ++ destruct (Nat.ltb_spec (Z.to_nat (p_off p + k)) (length (nth (p_block p) m []))); [|lia].
              destruct (Nat.eqb_spec (Z.to_nat k) (Z.to_nat (p_off p + k) - Z.to_nat (p_off p))); [|lia].
              destruct (Nat.ltb_spec (Z.to_nat (p_off p + k) - Z.to_nat (p_off p)) (length (contents m p))); [reflexivity|lia].
           ++ destruct (Nat.eqb_spec (Z.to_nat k) (n - Z.to_nat (p_off p))); [lia|]. rewrite contents_nth by (auto; lia). f_equal. lia.
        -- destruct (Nat.eqb_spec (Z.to_nat (p_off p + k)) n); [lia|reflexivity].
      * destruct (Nat.eqb_spec (Z.to_nat (p_off p + k)) n); [lia|reflexivity].
    + specialize (Lc p Hp). unfold lenZ in Lc. rewrite (proj2 (nth_error_None _ _)) by lia. unfold part_put.
      destruct (Z.ltb_spec k (p_dim p)); [lia|reflexivity].
  - apply One. intros p Hp. cbn [changed]. split; [now apply set_ok|]. split; [reflexivity|]. unfold lenZ. rewrite repeat_length. now apply Lc.
  - apply One. intros p Hp. cbn [changed]. split; [now apply zero_ok|]. split; [reflexivity|]. unfold lenZ. rewrite repeat_length. now apply Lc.
  - apply One. intros p Hp. cbn [changed]. split; [now apply each_map|]. split; [reflexivity|now apply Lm].
  - apply One. intros p Hp. cbn [changed]. split; [now apply each_map|]. split; [reflexivity|now apply Lm].
  - unfold the_part. destruct (nth_error ps i) as [p|] eqn:E; cbn [bind]; [|split; [reflexivity|discriminate]].
    assert (Hp := At i p E). rewrite floor_ok by exact Hp. cbn [bind changed]. split; [reflexivity|]. intros m' ps' a [= <- <- <-]. apply Keep; [exact Hp|now apply Lm].
  - apply One. intros p Hp. cbn [changed]. destruct (forallb (f_nonneg O) (contents m p)) eqn:A.
    + split; [now apply log_ok|]. split; [reflexivity|now apply Lm].
    + now apply log_fails.
  - apply One. intros p Hp. cbn [changed]. split; [now apply each_map|]. split; [reflexivity|now apply Lm].
  - apply One. intros p Hp. cbn [changed]. split; [now apply softmax_ok|]. split; [reflexivity|]. unfold lenZ. rewrite !map_length. now apply Lc.
  - apply One. intros p Hp. cbn [changed]. split; [now apply log_softmax_ok|]. split; [reflexivity|now apply Lm].
  - apply Two. intros p q Ep Eq Hp Hq. specialize (Fr p q Ep Eq). unfold changed2, part_copy. rewrite same_len by assumption.
    destruct (Z.eqb_spec (p_dim p) (p_dim q)) as [D|D]; cbn [negb check bind]; [|reflexivity].
    destruct (Nat.eqb (p_block p) (p_block q) && (p_off p =? p_off q)) eqn:Same.
    + apply andb_true_iff in Same. destruct Same as (S1 & S2). apply Nat.eqb_eq in S1. apply Z.eqb_eq in S2.
      split; [now rewrite replaced_at|]. split; [reflexivity|]. rewrite Lc by exact Hq. congruence.
    + destruct Fr as [A|(S1 & S2)]; [|apply Nat.eqb_eq in S1; apply Z.eqb_eq in S2; rewrite S1, S2 in Same; discriminate].
      assert (P0 : 0 <= p_dim p) by apply Hp. apply Z.leb_le in P0. rewrite P0, (overlap_apart p q D A). cbn [negb check bind].
      split; [|split; [reflexivity|rewrite Lc by exact Hq; congruence]].
      rewrite (pairs_ok m p q (fun _ y => y)); auto.
      * rewrite pairwise_second; [reflexivity|]. pose proof (Lc p Hp) as L1. pose proof (Lc q Hq) as L2. unfold lenZ in *. lia.
      * intros s k x y K R R'. now rewrite R'.
  - unfold the_part. destruct (nth_error ps i) as [p|] eqn:E; cbn [bind]; [|split; [reflexivity|discriminate]].
    destruct (nth_error ps j) as [q|] eqn:E'; cbn [bind]; [|split; [reflexivity|discriminate]].
    assert (Hp := At i p E). assert (Hq := At j q E'). unfold changed2, part_dot. rewrite same_len by assumption. rewrite (Z.eqb_sym (p_dim q)).
    destruct (Z.eqb_spec (p_dim p) (p_dim q)) as [D|D]; cbn [negb check bind]; [|split; [reflexivity|discriminate]].
    rewrite <- D. rewrite (read_fold m p q (fun s x y => f_add O s (f_mul O x y))); auto.
    + cbn [bind]. rewrite replaced_contents by exact Hp. split.
      * do 3 f_equal. unfold sum, pairwise. generalize (f_zero O). generalize (combine (contents m p) (contents m q)). induction l as [|a l IH]; intros z; [reflexivity|]. cbn. apply IH.
      * intros m' ps' a [= <- <- <-]. exact I.
    + intros s k x y K R R'. now rewrite R, R'.
  - apply Two. intros p q Ep Eq Hp Hq. specialize (Fr p q Ep Eq). unfold changed2, part_mul. rewrite same_len by assumption. rewrite (Z.eqb_sym (p_dim q)).
    destruct (Z.eqb_spec (p_dim p) (p_dim q)) as [D|D]; cbn [negb check bind]; [|reflexivity].
    pose proof (Lc p Hp) as L1. pose proof (Lc q Hq) as L2. unfold lenZ in L1, L2.
    split; [|split; [reflexivity|unfold lenZ; rewrite pair_len by lia; exact L1]].
    apply pairs_ok; auto. intros s k x y K R R'. rewrite R. cbn [bind]. rewrite get_rd, R' by lia. reflexivity.
  - apply Two. intros p q Ep Eq Hp Hq. specialize (Fr p q Ep Eq). unfold changed2, part_add_vec. rewrite same_len by assumption.
    destruct (Z.eqb_spec (p_dim p) (p_dim q)) as [D|D]; cbn [negb check bind]; [|reflexivity].
    pose proof (Lc p Hp) as L1. pose proof (Lc q Hq) as L2. unfold lenZ in L1, L2.
    rewrite (overlap_apart p q D Fr). cbn [negb check bind].
    split; [|split; [reflexivity|unfold lenZ; rewrite pair_len by lia; exact L1]].
    destruct (f_one x); apply pairs_ok; auto; intros s k u y K R R'; now rewrite R, R'.
Qed.
End Step.
