(** Proofs: collections are safe while paths have at most one word. *)
From Coq Require Import ZArith List Bool Lia.
From Verif.Base Require Import Prelude ZMap Lemmas.
From Verif.Spec Require Import MapSpec PoolSpec GCSpec DecoderSpec TotalSpec CommandSpec.
From Verif.Model Require Import Arith Vector HashTable Pool OLabel Fst Decoder.
From Verif.Proof Require Import Loop HashTable HashTableTotal Pool GC OLabel DecoderBase Decoder DecoderRun.
Import ListNotations.
Open Scope Z_scope.

(** A chain of two labels behind a reference gives two words. *)
Lemma rep_reach_words : forall g roots a, (forall r, In r roots -> exists ws, rep g (Some r) ws /\ lenZ ws <= 1) ->
  reach (link (g_heap g)) roots a -> exists ws, rep g (Some a) ws /\ lenZ ws <= 1.
Proof.
  intros g roots a H R. induction R as [a J|a b R IH (n & E & P)]; auto.
  destruct IH as (ws & IH & L). inversion IH as [|? ? ? ws' (n' & E' & _ & P' & _) R']; subst.
  rewrite E in E'. injection E' as <-. rewrite P in R'. exists ws'. split; auto. unfold lenZ in *. cbn [length] in L. lia.
Qed.

Lemma short_safe : forall g roots, (forall r, In r roots -> exists ws, rep g (Some r) ws /\ lenZ ws <= 1) -> gc_safe g roots.
Proof.
  intros g roots H. unfold gc_safe. cbv zeta. intros n b En _ Pn R.
  destruct (rep_reach_words g roots _ H R) as (ws & Q & L).
  inversion Q as [|? ? ? ws' (n' & E' & _ & P' & _) R']; subst.
  rewrite En in E'. injection E' as <-. rewrite Pn in R'. inversion R'; subst. unfold lenZ in L. cbn [length] in L. lia.
Qed.

Section Command.
Context {F D C : Type} (O : fops F) (X : xops F D) (cfg : config F C).
Context (wm : option (word_model F)) (good : C -> Prop).
Hypothesis Hlm : lm_implements (c_lm cfg) wm good.
Notation dec := (decoder F C).
Notation by_path := (by_path O X cfg wm).
Notation ready := (ready good).
Notation path := (path O X (c_graph cfg) (c_pdf cfg) (c_scale cfg) wm).

Lemma roots_short : forall (d : dec) fs, ready (by_path fs) d ->
  (forall s c ws, path fs s c ws -> lenZ ws <= 1) -> gc_safe (d_labels d) (label_roots (d_toks d)).
Proof.
  intros d fs [[_ _ _ At _] _] H. apply short_safe. intros r J.
  unfold label_roots in J. apply in_flat_map in J. destruct J as (t & Jt & J).
  destruct (At t Jt) as (ws & R & P). destruct (k_olabel t) as [a|] eqn:Ea; [|destruct J].
  destruct J as [->|[]]. exists ws. split; auto. apply H in P. unfold lenZ in *. now rewrite rev_length in P.
Qed.

Lemma short_later : forall fuel frames (d : dec) fs, ready (by_path fs) d -> d_frames d = lenZ fs ->
  (lenZ fs = 0 -> forall x, marked (g_heap (d_labels d)) x = false) ->
  (forall later fs' s c ws, rev frames ++ fs = later ++ fs' -> 20 < lenZ fs' -> lenZ fs' mod 20 = 1 -> path fs' s c ws -> lenZ ws <= 1) ->
  collections_safe O X cfg fuel d frames.
Proof.
  intros fuel frames. induction frames as [|logp frames IH]; intros d fs R Hf M H; cbn [collections_safe]; auto.
  assert (S : Z.rem (d_frames d) 20 = 0 -> forall d2, process O X cfg keep_all fuel d logp = Ok (d2, true) ->
     gc_safe (d_labels d2) (label_roots (d_toks d2))).
  { intros Zr d2 E.
    destruct (process_before_gc O X cfg wm good Hlm _ _ _ _ _ _ R (by_path_emit _ _ _ _ fs logp) (by_path_eps _ _ _ _ _) E)
      as (R2 & _ & _ & (_ & G & _) & _).
    assert (L0 : 0 <= lenZ fs) by (unfold lenZ; lia).
    destruct (Z.eq_dec (lenZ fs) 0) as [Z0|NZ].
    - intros n b En Sn. exfalso.
      assert (Mx : marked (g_heap (d_labels d2)) (p_block (g_pool (d_labels d2)) * label_block + p_pos (g_pool (d_labels d2)) - 1) = true).
      { unfold marked. rewrite En, Sn. reflexivity. }
      apply G in Mx. rewrite (M Z0) in Mx. discriminate.
    - apply (roots_short d2 (logp :: fs) R2). intros s c ws P. rewrite Z.rem_mod_nonneg in Zr by lia.
      apply (H (rev frames) (logp :: fs) s c ws).
      + cbn [rev]. now rewrite <- app_assoc.
      + unfold lenZ in *. cbn [length]. rewrite Hf in Zr. pose proof (Z.div_mod (Z.of_nat (length fs)) 20). lia.
      + unfold lenZ in *. cbn [length]. rewrite Hf in Zr. rewrite Nat2Z.inj_succ. unfold Z.succ.
        rewrite Z.add_mod by lia. rewrite Zr. reflexivity.
      + exact P. }
  split; [exact S|]. intros d2 E.
  destruct (process_ready O X cfg wm good Hlm _ _ _ _ _ _ R (by_path_emit _ _ _ _ fs logp) (by_path_eps _ _ _ _ _) S E)
    as (R1 & F1 & _).
  apply (IH d2 (logp :: fs) R1).
  - unfold lenZ in *. cbn [length]. lia.
  - unfold lenZ. cbn [length]. lia.
  - intros later fs' s c ws E'. apply (H later fs' s c ws). cbn [rev]. now rewrite <- app_assoc.
Qed.

Lemma slow_safe : forall fuel cache frames, good cache -> slow_words O X cfg wm frames -> run_safe O X cfg fuel cache frames.
Proof.
  intros fuel cache frames Gc H d0 d1 E0 E1.
  destruct (decodes_ready O X cfg wm good Hlm keep_all fuel cache [] d1 Gc) as (d1' & R & F0 & _ & M & Er & _).
  { exists d0, d1. auto. }
  cbn in Er. injection Er as ->.
  apply (short_later fuel frames d1 []); auto.
  intros later fs' s c ws E. rewrite app_nil_r in E. eapply H; eauto.
Qed.

(** Paths are walks. *)
Lemma path_walk : forall fs s c ws, path fs s c ws -> walk (c_graph cfg) (Datatypes.fst s) ws.
Proof. intros fs s c ws P. induction P; [constructor| |]; cbn [Datatypes.fst] in *; eapply walk_arc; eauto. Qed.

Lemma one_slow : forall frames, one_word (c_graph cfg) -> slow_words O X cfg wm frames.
Proof. intros frames H later fs s c ws _ _ _ P. eapply H. eapply path_walk; eauto. Qed.

Lemma one_brief : forall frames, one_word (c_graph cfg) -> brief O X cfg wm frames.
Proof. intros frames H later fs s c ws _ P. apply path_walk in P. apply H in P. lia. Qed.

Lemma one_safe : forall fuel cache frames, good cache -> one_word (c_graph cfg) -> run_safe O X cfg fuel cache frames.
Proof. intros fuel cache frames Gc H. apply slow_safe; auto. now apply one_slow. Qed.

(** Few frames. *)
Lemma few_slow : forall frames, lenZ frames <= 20 -> slow_words O X cfg wm frames.
Proof.
  intros frames L later fs s c ws E. apply (f_equal (@length _)) in E. rewrite rev_length, app_length in E.
  unfold lenZ in *. lia.
Qed.

Lemma slow_40 : forall frames, lenZ frames <= 40 ->
  (forall later fs s c ws, rev frames = later ++ fs -> lenZ fs = 21 -> path fs s c ws -> lenZ ws <= 1) -> slow_words O X cfg wm frames.
Proof.
  intros frames L H later fs s c ws E L1 L2. apply (H later); auto.
  apply (f_equal (@length _)) in E. rewrite rev_length, app_length in E. unfold lenZ in *.
  pose proof (Z.div_mod (Z.of_nat (length fs)) 20). pose proof (Z.mod_pos_bound (Z.of_nat (length fs)) 20). lia.
Qed.
End Command.
