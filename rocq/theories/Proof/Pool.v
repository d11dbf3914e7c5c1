(** Proofs about the object pool (allocation, deallocation, Clear). *)
From Coq Require Import ZArith List Bool Lia Permutation.
From Verif.Base Require Import Prelude ZMap Lemmas.
From Verif.Spec Require Import PoolSpec.
From Verif.Model Require Import Pool.
Import ListNotations.
Open Scope Z_scope.

Lemma blocks_for_spec : forall B n k, 0 < B ->
  (blocks_for B n = k <-> 1 <= k /\ Z.of_nat n <= k * B /\ (k = 1 \/ (k - 1) * B < Z.of_nat n)).
Proof.
  intros B n k HB. unfold blocks_for.
  set (q := (Z.of_nat n + B - 1) / B).
  assert (Hq : B * q <= Z.of_nat n + B - 1 < B * q + B).
  { unfold q. pose proof (Z.div_mod (Z.of_nat n + B - 1) B ltac:(lia)).
    pose proof (Z.mod_pos_bound (Z.of_nat n + B - 1) B HB). lia. }
  split.
  - intros <-. split; [lia|]. destruct (Z.max_spec 1 q) as [[H1 ->]|[H1 ->]].
    + split; [nia|]. right. nia.
    + split; [nia|]. left. reflexivity.
  - intros (H1 & H2 & H3).
    assert (q <= k) by nia.
    destruct H3 as [->|H3]; [lia|]. assert (k <= q) by nia. lia.
Qed.

Lemma seqZ_map_shift : forall n a c, map (fun i => c + i) (seqZ a n) = seqZ (c + a) n.
Proof.
  induction n; intros; simpl; auto. rewrite IHn. do 2 f_equal. lia.
Qed.

Lemma blocks_seqZ : forall B n, 0 <= B ->
  flat_map (fun b => map (fun i => b * B + i) (seqZ 0 (Z.to_nat B))) (seqZ 0 n)
  = seqZ 0 (Z.to_nat (Z.of_nat n * B)).
Proof.
  intros B n HB. induction n.
  - reflexivity.
  - replace (S n) with (n + 1)%nat by lia. rewrite seqZ_app, flat_map_app, IHn.
    cbn [seqZ flat_map]. rewrite app_nil_r, seqZ_map_shift.
    replace (Z.to_nat (Z.of_nat (n + 1) * B)) with (Z.to_nat (Z.of_nat n * B) + Z.to_nat B)%nat by nia.
    rewrite seqZ_app. f_equal. f_equal. nia.
Qed.

Lemma remove_perm : forall a l, In a l -> NoDup l -> Permutation l (a :: remove Z.eq_dec a l).
Proof.
  induction l; intros Hi Hn; [destruct Hi|]. inversion Hn; subst. simpl.
  destruct (Z.eq_dec a a0) as [->|Hne].
  - now rewrite notin_remove.
  - destruct Hi as [->|Hi]; [congruence|].
    etransitivity; [apply perm_skip, IHl; auto|]. apply perm_swap.
Qed.

Section PoolProof.
  Variable B : Z.
  Hypothesis HB : 0 < B.

  Definition top (p : pool) : Z := p_block p * B + p_pos p.

  (** Holds whatever the user does. *)
  Record shape (p : pool) : Prop := {
    sh_block : 0 <= p_block p < p_blocks p;
    sh_pos : 0 <= p_pos p <= B;
    sh_zero : p_pos p = 0 -> p_block p = 0
  }.

  (** Holds for legal users. *)
  Record pinv (p : pool) (past : list event) : Prop := {
    pi_shape : shape p;
    pi_slots : Permutation (p_free p ++ live past) (seqZ 0 (Z.to_nat (top p)));
    pi_top : top p = Z.of_nat (peak_recent past);
    pi_blocks : p_blocks p = blocks_for B (peak past)
  }.

  Lemma shape_init : shape pool_init.
  Proof. constructor; simpl; lia. Qed.

  Lemma top_nonneg : forall p, shape p -> 0 <= top p.
  Proof. intros p [Hb Hp Hz]. unfold top. nia. Qed.

  (** The slot handed out when the free list is empty. *)
  Lemma alloc_bump : forall p, shape p -> p_free p = [] ->
    exists p', alloc B p = Ok (p', top p) /\ shape p' /\ top p' = top p + 1 /\ p_free p' = [] /\
      p_blocks p' = (if (p_pos p =? B) && (p_block p =? p_blocks p - 1)
                     then p_blocks p + 1 else p_blocks p).
  Proof.
    intros p [Hb Hp Hz] Hf. unfold alloc. rewrite Hf.
    destruct (Z.leb_spec (p_pos p) B); [|lia]. cbn [check bind].
    destruct (Z.eqb_spec (p_pos p) B).
    - cbn [p_block p_blocks p_pos p_free].
      destruct (Z.eqb_spec (p_block p) (p_blocks p - 1)).
      + destruct (Z.ltb_spec (p_block p + 1) (p_blocks p + 1)); [|lia]. cbn [check bind andb].
        eexists. split; [f_equal; f_equal; unfold top; lia|].
        split; [constructor; cbn; lia|]. unfold top; cbn. repeat split; auto. lia.
      + destruct (Z.ltb_spec (p_block p + 1) (p_blocks p)); [|lia]. cbn [check bind andb].
        eexists. split; [f_equal; f_equal; unfold top; lia|].
        split; [constructor; cbn; lia|]. unfold top; cbn. repeat split; auto. lia.
    - destruct (Z.ltb_spec (p_block p) (p_blocks p)); [|lia]. cbn [check bind andb].
      eexists. split; [reflexivity|].
      split; [constructor; cbn; lia|]. unfold top; cbn. repeat split; auto. lia.
  Qed.

  Lemma alloc_pop : forall p a r, p_free p = a :: r ->
    alloc B p = Ok (mk_pool (p_blocks p) r (p_block p) (p_pos p), a).
  Proof. intros p a r Hf. unfold alloc. now rewrite Hf. Qed.

  Lemma alloc_shape : forall p, shape p ->
    exists p' a, alloc B p = Ok (p', a) /\ shape p'.
  Proof.
    intros p Hs. destruct (p_free p) as [|a r] eqn:Hf.
    - destruct (alloc_bump p Hs Hf) as (p' & E & Hs' & _). eauto.
    - rewrite (alloc_pop p a r Hf). do 2 eexists. split; [reflexivity|].
      destruct Hs. constructor; auto.
  Qed.

  Lemma prun_total : forall h p past, shape p ->
    exists p' past', prun B p past h = Ok (p', past').
  Proof.
    induction h as [|c h IH]; intros p past Hs; cbn [prun].
    - eauto.
    - destruct c as [|a|].
      + destruct (alloc_shape p Hs) as (p' & a & E & Hs'). rewrite E. cbn [bind]. auto.
      + apply IH. destruct Hs. constructor; auto.
      + cbn. apply IH. destruct Hs. constructor; cbn; lia.
  Qed.

  Lemma pinv_init : pinv pool_init [].
  Proof.
    constructor.
    - apply shape_init.
    - simpl. apply Permutation_refl.
    - reflexivity.
    - symmetry. apply blocks_for_spec; auto. cbn [peak p_blocks pool_init]. lia.
  Qed.

  Lemma peak_ge : forall past, (peak_recent past <= peak past)%nat.
  Proof.
    induction past as [|e r IH]; [simpl; auto|]. destruct e; cbn [peak_recent peak live length]; lia.
  Qed.

  Lemma live_peak : forall past, (length (live past) <= peak_recent past)%nat.
  Proof. destruct past as [|e r]; [simpl; auto|]. destruct e; cbn [peak_recent live]; [apply Nat.le_max_l|apply Nat.le_max_l|simpl; lia]. Qed.

  Lemma pinv_counts : forall p past, pinv p past ->
    Z.of_nat (length (p_free p)) + Z.of_nat (length (live past)) = top p.
  Proof.
    intros p past [Hs Hp _ _]. apply Permutation_length in Hp.
    rewrite app_length, seqZ_length in Hp. pose proof (top_nonneg p Hs). lia.
  Qed.

  Lemma pinv_alloc : forall p past p' a,
    pinv p past -> alloc B p = Ok (p', a) ->
    ~ In a (live past) /\ pinv p' (EAlloc a :: past).
  Proof.
    intros p past p' a Hi E. pose proof (pinv_counts p past Hi) as Hc.
    destruct Hi as [Hs Hp Ht Hb]. pose proof (top_nonneg p Hs) as Ht0.
    assert (Hn : NoDup (p_free p ++ live past)).
    { eapply Permutation_NoDup; [symmetry; exact Hp|apply NoDup_seqZ]. }
    destruct (p_free p) as [|x r] eqn:Hf.
    - destruct (alloc_bump p Hs Hf) as (q & E' & Hs' & Htop & Hf' & Hb').
      rewrite E in E'. injection E' as -> ->. cbn [app] in *.
      split.
      + intros Hin. eapply Permutation_in in Hin; [|exact Hp].
        apply in_seqZ in Hin. lia.
      + constructor; auto.
        * rewrite Hf'. cbn [app live]. rewrite Htop.
          replace (Z.to_nat (top p + 1)) with (Z.to_nat (top p) + 1)%nat by lia.
          rewrite seqZ_app. cbn [seqZ]. rewrite Z.add_0_l, Z2Nat.id by lia.
          etransitivity; [apply perm_skip; exact Hp|]. apply Permutation_cons_append.
        * cbn [peak_recent live length]. cbn [length] in Hc. lia.
        * rewrite Hb'. symmetry. apply blocks_for_spec; auto.
          cbn [peak live length]. cbn [length] in Hc.
          symmetry in Hb. apply blocks_for_spec in Hb; auto. destruct Hb as (B1 & B2 & B3).
          pose proof (peak_ge past). destruct Hs as [S1 S2 S3]. unfold top in *.
          destruct (Z.eqb_spec (p_pos p) B); cbn [andb].
          -- destruct (Z.eqb_spec (p_block p) (p_blocks p - 1)).
             ++ assert (p_blocks p * B = p_block p * B + B) by nia. nia.
             ++ assert ((p_block p + 2) * B <= p_blocks p * B) by nia.
                split; [lia|]. split; [nia|]. destruct B3; [left; lia|right; nia].
          -- assert ((p_block p + 1) * B <= p_blocks p * B) by nia.
             split; [lia|]. split; [nia|]. destruct B3; [left; lia|right; nia].
    - rewrite (alloc_pop p x r Hf) in E. injection E as <- <-.
      cbn [app] in Hn. inversion Hn as [|? ? Hx Hn']; subst. rewrite in_app_iff in Hx.
      split; [tauto|].
      assert (Hl : (length (live past) + 1 <= peak_recent past)%nat).
      { unfold top in *. cbn [length] in Hc. lia. }
      constructor.
      + destruct Hs; constructor; auto.
      + unfold top in *. cbn [p_free p_block p_pos live].
        etransitivity; [|exact Hp]. cbn [app]. symmetry. apply Permutation_middle.
      + unfold top in *. cbn [p_block p_pos peak_recent live length]. lia.
      + cbn [p_blocks peak live length]. rewrite Hb. f_equal. pose proof (peak_ge past). lia.
  Qed.

  Lemma pinv_dealloc : forall p past a,
    pinv p past -> In a (live past) -> pinv (dealloc p a) (EDealloc a :: past).
  Proof.
    intros p past a Hi Ha. pose proof (pinv_counts p past Hi) as Hc.
    destruct Hi as [Hs Hp Ht Hb].
    assert (Hn : NoDup (live past)).
    { assert (Hn : NoDup (p_free p ++ live past))
        by (eapply Permutation_NoDup; [symmetry; exact Hp|apply NoDup_seqZ]).
      clear -Hn. induction (p_free p); auto. cbn in Hn. inversion Hn; auto. }
    pose proof (remove_perm a (live past) Ha Hn) as Hr.
    pose proof (Permutation_length Hr) as Hlr. cbn [length] in Hlr.
    pose proof (live_peak past) as Hlp. pose proof (peak_ge past) as Hpg.
    constructor.
    - destruct Hs; constructor; auto.
    - unfold dealloc, top in *. cbn [p_free p_block p_pos live app].
      etransitivity; [|exact Hp].
      etransitivity; [apply Permutation_middle|]. apply Permutation_app_head. now symmetry.
    - unfold dealloc, top in *. cbn [p_block p_pos peak_recent live]. lia.
    - unfold dealloc. cbn [p_blocks peak live]. rewrite Hb. f_equal. lia.
  Qed.

  Lemma pinv_clear : forall p past d,
    pinv p past -> pinv (fst (pool_clear B p)) (EClear d :: past).
  Proof.
    intros p past d [Hs Hp Ht Hb]. destruct Hs. constructor; cbn; auto.
    constructor; cbn; lia.
  Qed.

  Lemma clear_exact : forall p past,
    pinv p past -> blocks_for B (peak_recent past) = blocks_for B (peak past) ->
    Permutation (clear_destroys B p) (live past).
  Proof.
    intros p past Hi Hbl. pose proof (pinv_counts p past Hi) as Hc.
    destruct Hi as [Hs Hp Ht Hb]. rewrite <- Hbl in Hb.
    symmetry in Hb. apply blocks_for_spec in Hb; auto. destruct Hb as (B1 & B2 & B3).
    rewrite <- Ht in *. pose proof (top_nonneg p Hs) as Ht0.
    destruct Hs as [S1 S2 S3].
    assert (Hlast : p_block p = p_blocks p - 1).
    { destruct B3 as [B3|B3]; [lia|]. unfold top in *.
      destruct (Z.eq_dec (p_pos p) 0) as [E|E].
      - rewrite (S3 E) in *. nia.
      - assert (p_blocks p - 1 < p_block p + 1) by nia. lia. }
    unfold clear_destroys.
    rewrite blocks_seqZ by lia.
    replace (Z.of_nat (Z.to_nat (p_blocks p - 1)) * B) with (p_block p * B) by nia.
    rewrite <- Hlast, seqZ_map_shift.
    replace (p_block p * B + 0) with (0 + Z.of_nat (Z.to_nat (p_block p * B))) by nia.
    rewrite <- seqZ_app.
    replace (Z.to_nat (p_block p * B) + Z.to_nat (p_pos p))%nat with (Z.to_nat (top p))
      by (unfold top; nia).
    set (f := fun a => negb (existsb (Z.eqb a) (p_free p))).
    assert (Hn : NoDup (p_free p ++ live past)).
    { eapply Permutation_NoDup; [symmetry; exact Hp|apply NoDup_seqZ]. }
    assert (Hff : Permutation (filter f (seqZ 0 (Z.to_nat (top p)))) (filter f (p_free p ++ live past))).
    { clear -Hp. induction Hp; simpl; auto.
      - destruct (f x); auto.
      - destruct (f x), (f y); auto. apply perm_swap.
      - etransitivity; eauto. }
    rewrite Hff, filter_app.
    assert (E1 : filter f (p_free p) = []).
    { assert (forall l, incl l (p_free p) -> filter f l = []) as G.
      { induction l as [|x l IH]; intros Hl; auto. simpl.
        assert (f x = false) as ->.
        { unfold f. apply negb_false_iff. apply existsb_exists. exists x.
          split; [apply Hl; left; auto|apply Z.eqb_refl]. }
        apply IH. intros y Hy. apply Hl. right; auto. }
      apply G. intros x; auto. }
    assert (E2 : filter f (live past) = live past).
    { assert (Hd : forall x, In x (live past) -> f x = true).
      { intros x Hx. unfold f. apply negb_true_iff.
        destruct (existsb (Z.eqb x) (p_free p)) eqn:E; auto. exfalso.
        apply existsb_exists in E. destruct E as [y [Hy E]]. apply Z.eqb_eq in E. subst y.
        clear -Hn Hx Hy. induction (p_free p) as [|z l IH]; [destruct Hy|].
        cbn in Hn. inversion Hn; subst. destruct Hy as [->|Hy]; auto.
        apply H1. apply in_or_app; auto. }
      clear -Hd. induction (live past); simpl; auto.
      rewrite Hd by (left; auto). f_equal. apply IHl. intros; apply Hd; right; auto. }
    rewrite E1, E2. reflexivity.
  Qed.

  (** All histories. *)
  Definition fresh_allocs (past : list event) : Prop :=
    forall later a earlier, past = later ++ EAlloc a :: earlier -> ~ In a (live earlier).

  (** What every Clear destroyed. *)
  Definition cleared (past : list event) : Prop :=
    forall later d earlier, past = later ++ EClear d :: earlier ->
    exists q, pinv q earlier /\ d = clear_destroys B q.

  Lemma legal_tail : forall e r, legal (e :: r) -> legal r.
  Proof. intros e r H. destruct e; simpl in H; tauto. Qed.

  Lemma prun_extends : forall h p past p' past',
    prun B p past h = Ok (p', past') -> exists more, past' = more ++ past.
  Proof.
    induction h as [|c h IH]; intros p past p' past' H; cbn [prun] in H.
    - inversion H; subst. exists []. reflexivity.
    - destruct c as [|a|].
      + inv_bind H. destruct a as [q a]. apply IH in H. destruct H as [m ->].
        exists (m ++ [EAlloc a]). now rewrite <- app_assoc.
      + apply IH in H. destruct H as [m ->].
        exists (m ++ [EDealloc a]). now rewrite <- app_assoc.
      + cbn in H. apply IH in H. destruct H as [m ->].
        eexists (m ++ [_]). rewrite <- app_assoc. reflexivity.
  Qed.

  Lemma legal_app : forall more past, legal (more ++ past) -> legal past.
  Proof. induction more; simpl; intros; auto. apply IHmore. eapply legal_tail; eauto. Qed.

  Lemma prun_inv : forall h p past p' past',
    pinv p past -> fresh_allocs past ->
    cleared past ->
    prun B p past h = Ok (p', past') -> legal past' ->
    pinv p' past' /\ fresh_allocs past' /\
    cleared past'.
  Proof.
    induction h as [|c h IH]; intros p past p' past' Hi Hf Hd H Hl; cbn [prun] in H.
    - inversion H; subst. auto.
    - destruct c as [|a|].
      + inv_bind H. destruct a as [q a].
        destruct (pinv_alloc _ _ _ _ Hi Hb) as [Hna Hi'].
        apply (IH q (EAlloc a :: past) p' past' Hi'); auto.
        * intros later x earlier E. destruct later as [|e later]; cbn in E.
          -- injection E as <- <-. exact Hna.
          -- injection E as _ E. eapply Hf; eauto.
        * intros later x earlier E. destruct later as [|e later]; cbn in E; [discriminate|].
          injection E as _ E. eapply Hd; eauto.
      + pose proof (prun_extends _ _ _ _ _ H) as [m ->].
        pose proof (legal_app _ _ Hl) as Hl'. cbn in Hl'.
        apply (IH (dealloc p a) (EDealloc a :: past) p' _ ); auto.
        * apply pinv_dealloc; tauto.
        * intros later x earlier E. destruct later as [|e later]; cbn in E; [discriminate|].
          injection E as _ E. eapply Hf; eauto.
        * intros later x earlier E. destruct later as [|e later]; cbn in E; [discriminate|].
          injection E as _ E. eapply Hd; eauto.
      + cbn in H. apply (IH _ _ _ _ (pinv_clear p past (clear_destroys B p) Hi)) in H; auto.
        * intros later x earlier E. destruct later as [|e later]; cbn in E; [discriminate|].
          injection E as _ E. eapply Hf; eauto.
        * intros later x earlier E. destruct later as [|e later]; cbn in E.
          -- injection E as <- <-. eauto.
          -- injection E as _ E. eapply Hd; eauto.
  Qed.

  Lemma pool_history : forall h, exists p past,
    prun B pool_init [] h = Ok (p, past) /\
    (legal past ->
     fresh_allocs past /\
     allocated_nodes B p = Z.of_nat (length (live past)) /\
     allocated_nodes B p + free_nodes B p = p_blocks p * B).
  Proof.
    intros h. destruct (prun_total h pool_init [] shape_init) as (p & past & E).
    exists p, past. split; auto. intros Hl.
    destruct (prun_inv h pool_init [] p past pinv_init) as (Hi & Hf & _); auto.
    - intros later a earlier E'. destruct later; discriminate.
    - intros later a earlier E'. destruct later; discriminate.
    - split; auto. pose proof (pinv_counts p past Hi) as Hc.
      unfold allocated_nodes, free_nodes, top in *. lia.
  Qed.

  Lemma pinv_live_nodup : forall p past, pinv p past -> NoDup (live past).
  Proof.
    intros p past [Hs Hp _ _].
    assert (Hn : NoDup (p_free p ++ live past))
      by (eapply Permutation_NoDup; [symmetry; exact Hp|apply NoDup_seqZ]).
    clear -Hn. induction (p_free p); auto. cbn in Hn. inversion Hn; auto.
  Qed.

  Lemma clear_covers : forall p past, pinv p past ->
    NoDup (clear_destroys B p) /\ incl (live past) (clear_destroys B p).
  Proof.
    intros p past [Hs Hp _ _]. destruct Hs as [S1 S2 S3].
    unfold clear_destroys. rewrite blocks_seqZ by lia.
    rewrite seqZ_map_shift.
    replace ((p_blocks p - 1) * B + 0)
      with (0 + Z.of_nat (Z.to_nat (Z.of_nat (Z.to_nat (p_blocks p - 1)) * B))) by nia.
    rewrite <- seqZ_app. split; [apply NoDup_filter, NoDup_seqZ|].
    intros a Ha. apply filter_In. split.
    - assert (Hin : In a (seqZ 0 (Z.to_nat (top p)))).
      { eapply Permutation_in; [exact Hp|]. apply in_or_app; auto. }
      apply in_seqZ in Hin. apply in_seqZ. unfold top in Hin. nia.
    - assert (Hn : NoDup (p_free p ++ live past))
        by (eapply Permutation_NoDup; [symmetry; exact Hp|apply NoDup_seqZ]).
      apply negb_true_iff. destruct (existsb (Z.eqb a) (p_free p)) eqn:E; auto. exfalso.
      apply existsb_exists in E. destruct E as [y [Hy E]]. apply Z.eqb_eq in E. subst y.
      clear -Hn Ha Hy. induction (p_free p) as [|z l IH]; [destruct Hy|].
      cbn in Hn. inversion Hn; subst. destruct Hy as [->|Hy]; auto.
      apply H1. apply in_or_app; auto.
  Qed.

  Lemma pool_clear_history : forall h p past later d earlier,
    prun B pool_init [] h = Ok (p, past) -> legal past ->
    past = later ++ EClear d :: earlier ->
    NoDup d /\ incl (live earlier) d /\
    ((forall d', ~ In (EClear d') earlier) \/
     blocks_for B (peak_recent earlier) = blocks_for B (peak earlier) ->
     Permutation d (live earlier)).
  Proof.
    intros h p past later d earlier E Hl Ep.
    destruct (prun_inv h pool_init [] p past pinv_init) as (_ & _ & Hc); auto.
    { intros l a e' E'. destruct l; discriminate. }
    { intros l a e' E'. destruct l; discriminate. }
    destruct (Hc later d earlier Ep) as (q & Hq & ->).
    destruct (clear_covers q earlier Hq). split; auto. split; auto.
    intros [Hf|Hb]; apply clear_exact; auto. f_equal.
    clear -Hf. induction earlier as [|e r IH]; auto.
    assert (G : peak_recent r = peak r) by (apply IH; intros d' Hd; apply (Hf d'); right; auto).
    destruct e; cbn [peak_recent peak]; try congruence.
    exfalso. apply (Hf destroyed). left; auto.
  Qed.
End PoolProof.

(** Any history that fills more than one block and is then cleared twice
    destroys the objects of the first block a second time. *)
Lemma clear_destroys_full : forall B p, 0 < B -> p_free p = [] -> p_pos p = 0 -> 1 <= p_blocks p ->
  clear_destroys B p = seqZ 0 (Z.to_nat ((p_blocks p - 1) * B)).
Proof.
  intros B p HB Hf Hp Hb. unfold clear_destroys. rewrite Hf, Hp. cbn [Z.to_nat seqZ map existsb negb].
  rewrite app_nil_r, blocks_seqZ by lia.
  rewrite Z2Nat.id by lia.
  induction (seqZ 0 (Z.to_nat ((p_blocks p - 1) * B))) as [|x l IH]; simpl; congruence.
Qed.

Lemma prun_app : forall B h1 h2 p past,
  prun B p past (h1 ++ h2) = ('(p, past) <- prun B p past h1 ;; prun B p past h2).
Proof.
  induction h1 as [|c h1 IH]; intros; cbn [app prun bind]; auto.
  destruct c; cbn; auto. destruct (alloc B p) as [[q a]|]; cbn [bind]; auto.
Qed.

Lemma prun_allocs : forall B n p past q out, 
  prun B p past (repeat PAlloc n) = Ok (q, out) ->
  (legal past -> legal out) /\ (length (live out) = n + length (live past))%nat.
Proof.
  induction n as [|n IH]; intros p past q out H; cbn [repeat prun] in H.
  - inversion H; subst. auto.
  - inv_bind H. destruct a as [p1 a]. apply IH in H. cbn [legal live length] in H.
    destruct H as [H1 H2]. split; auto. lia.
Qed.

Lemma pool_double_destroy : forall B n, 0 < B -> B < Z.of_nat n ->
  exists p d d' past,
    prun B pool_init [] (repeat PAlloc n ++ [PClear; PClear]) = Ok (p, EClear d' :: EClear d :: past) /\
    legal (EClear d' :: EClear d :: past) /\
    live (EClear d :: past) = [] /\ incl (seqZ 0 (Z.to_nat B)) d' /\ d' <> [].
Proof.
  intros B n HB Hn.
  destruct (prun_total B HB (repeat PAlloc n) pool_init [] (shape_init B HB)) as (p & past & E).
  destruct (prun_allocs _ _ _ _ _ _ E) as [Hl Hlen].
  destruct (prun_inv B HB (repeat PAlloc n) pool_init [] p past) as (Hi & _); auto.
  { apply pinv_init; auto. }
  { intros l a e' E'. destruct l; discriminate. }
  { intros l a e' E'. destruct l; discriminate. }
  { apply Hl. exact I. }
  assert (Hpk : (n <= peak past)%nat).
  { pose proof (live_peak past). pose proof (peak_ge past). cbn [live length] in Hlen. lia. }
  pose proof (pi_blocks _ _ _ Hi) as Hb. symmetry in Hb. apply blocks_for_spec in Hb; auto.
  set (p1 := mk_pool (p_blocks p) [] 0 0).
  assert (Hd : clear_destroys B p1 = seqZ 0 (Z.to_nat ((p_blocks p - 1) * B))).
  { rewrite clear_destroys_full; auto. cbn. lia. }
  assert (H2 : 1 < p_blocks p) by (apply (Zmult_lt_reg_r _ _ B); lia).
  assert (Hge : B <= (p_blocks p - 1) * B) by nia.
  exists p1, (clear_destroys B p), (clear_destroys B p1), past.
  split; [rewrite prun_app, E; reflexivity|].
  split; [cbn; apply Hl; exact I|]. split; [reflexivity|]. rewrite Hd. split.
  - intros x Hx. apply in_seqZ in Hx. apply in_seqZ. lia.
  - intros E0. assert (In 0 (seqZ 0 (Z.to_nat ((p_blocks p - 1) * B)))) as Hin by (apply in_seqZ; lia).
    rewrite E0 in Hin. destruct Hin.
Qed.
