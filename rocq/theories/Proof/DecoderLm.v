(** The language models of the program are what the decoder expects. *)
From Coq Require Import ZArith List Bool Lia.
From Verif.Base Require Import Prelude ZMap Lemmas.
From Verif.Spec Require Import DecoderSpec.
From Verif.Model Require Import Arith Fst Decoder.
From Verif.Proof Require Import Loop Lm Decoder.
Import ListNotations.
Open Scope Z_scope.

Section Cached.
Context {W : Type} (query : Z -> Z -> res (option (arc W))).
Hypothesis Hq : forall s x a, query s x = Ok (Some a) -> input_label a = x.

Lemma cached_ok : forall c s x r c', Forall (entry_ok query) c -> cached_get_arc query c s x = Ok (r, c') ->
  query s x = Ok r /\ Forall (entry_ok query) c' /\ lenZ c' = lenZ c.
Proof.
  intros c s x r c' Fc E. unfold cached_get_arc in E. destruct (Z.eqb_spec s 0) as [Z0|NZ].
  - inv_bind E. injection E as <- <-. auto.
  - inv_bind E. inv_bind E. cbv zeta in E. inv_bind E. destruct a1 as [key cached]. 
    assert (EO : entry_ok query (key, cached)) by (rewrite Forall_forall in Fc; apply Fc; eapply getZ_in; exact Hb1).
    inv_bind E. destruct a1.
    + injection E as <- <-. split; auto. destruct (Z.eqb_spec key s) as [->|]; [|discriminate].
      destruct cached as [b|]; [|discriminate]. injection Hb2 as Hb2. apply Z.eqb_eq in Hb2. subst x.
      destruct EO as [EO|(s' & b' & EO & Q)]; [discriminate|]. injection EO as <- <-. exact Q.
    + inv_bind E. destruct a1 as [b|].
      * inv_bind E. injection E as <- <-. split; auto. split; [|unfold setZ in Hb4; destruct (_ || _); [discriminate|]; injection Hb4 as <-; unfold lenZ; now rewrite upd_length].
        apply Forall_forall. intros e J. unfold setZ in Hb4. destruct (_ || _); [discriminate|]. injection Hb4 as <-.
        apply In_nth_error in J. destruct J as [m J]. rewrite nth_error_upd in J.
        destruct (Nat.eqb _ m).
        -- destruct (Nat.ltb _ _); [|discriminate]. injection J as <-. right. exists s, b. split; [reflexivity|].
           rewrite (Hq s x b Hb3). exact Hb3.
        -- rewrite Forall_forall in Fc. apply Fc. eapply nth_error_In. exact J.
      * injection E as <- <-. auto.
Qed.
End Cached.

Lemma cached_lm_implements : forall F (O : fops F) depth (m : delta_lm F),
  implements (cached_lm O depth m) (delta_words O depth m) (true_cache O depth m).
Proof.
  intros F O depth m. split; [|split].
  - cbn. intros s E. rewrite E. reflexivity.
  - intros c s x r c' Gc E. cbn in E.
    destruct Gc as [Lc Gc]. destruct (cached_ok _ (delta_label O depth m) _ _ _ _ _ Gc E) as (Q & Gc' & Lc').
    split; [split; [rewrite Lc'; exact Lc|exact Gc']|].
    cbn. rewrite Q. destruct r; reflexivity.
  - cbn. intros s f E. rewrite E. reflexivity.
Qed.

Lemma new_cache_true : forall F (O : fops F) depth (m : delta_lm F) n c, 0 < n <= 2147483647 -> new_cache n = Ok c -> true_cache O depth m c.
Proof.
  intros F O depth m n c B E. unfold new_cache in E. inv_bind E. injection E as <-.
  split; [unfold lenZ; rewrite repeat_length; lia|]. apply Forall_forall. intros e J. apply repeat_spec in J. left. exact J.
Qed.
