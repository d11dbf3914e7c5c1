From Coq Require Import List ZArith Bool Lia.
From Verif.Base Require Import Prelude.
From Verif.Spec Require Import TextSpec ProgramSpec CharTokSpec.
From Verif.Model Require Import CharTok.
From Verif.Proof Require Import CharTok.
Import ListNotations.
Open Scope Z_scope.

Lemma space_line : forall ws l, line_of white ws l -> line_of white ws (32 :: l).
Proof.
  intros ws l [b Hb|b w ws' rest Hb Hw Hn Hr Hl].
  - constructor. intros c [<-|Hc]; auto.
  - apply (line_word white (32 :: b)); auto. intros c [<-|Hc]; auto.
Qed.

Lemma join_line : forall ws, Forall a_word ws -> line_of white ws (join [32] ws).
Proof.
  induction 1 as [|w ws [Hw Hn] Hws IH].
  - constructor. intros c [].
  - destruct ws as [|v ws].
    + replace (join [32] [w]) with ([] ++ w ++ []) by (cbn; apply app_nil_r).
      constructor; auto.
      * intros c [].
      * discriminate.
    + change (join [32] (w :: v :: ws)) with ([] ++ w ++ ([32] ++ join [32] (v :: ws))).
      constructor; auto.
      * intros c [].
      * intros c r E. now inversion E.
      * apply space_line. exact IH.
Qed.

Lemma join_clean : forall ws, Forall a_word ws -> no_newline (join [32] ws).
Proof.
  induction 1 as [|w ws [Hw Hn] Hws IH]; [intros []|].
  assert (Hc : no_newline w) by (intro H; now specialize (Hn 10 H)).
  destruct ws as [|v ws]; [exact Hc|].
  change (join [32] (w :: v :: ws)) with (w ++ 32 :: join [32] (v :: ws)).
  intro H. apply in_app_or in H as [H|[H|H]]; [auto|discriminate|auto].
Qed.

Lemma printed_lines : forall entries namess,
  length entries = length namess ->
  printed entries (map (join [32]) namess)
  = file_of (map (fun p => fst (fst p) ++ 32 :: join [32] (snd p)) (combine entries namess)).
Proof.
  unfold printed, file_of. induction entries as [|e es IH]; intros [|ns nss] H; try discriminate;
    [reflexivity|]. cbn [map combine concat]. cbn [length] in H. rewrite IH by lia.
  f_equal. cbn [fst snd]. now rewrite <- !app_assoc.
Qed.

Lemma printed_split : forall entries namess pss,
  length entries = length namess ->
  Forall (fun e : bytes * bytes => a_word (fst e)) entries ->
  Forall (Forall a_word) namess -> Forall2 pieces namess pss ->
  conv_chartok (printed entries (map (join [32]) namess))
  = file_of (map (fun p => fst (fst p) ++ concat (map (fun q => 32 :: q) (snd p)))
               (combine entries pss)).
Proof.
  intros entries namess pss Hl He Hn Hp. rewrite printed_lines by assumption.
  apply lines_split.
  - revert namess pss Hl Hn Hp. induction He as [|e es [Hw Hb] _ IH];
      intros namess pss Hl Hn Hp; destruct Hn as [|ns nss Hns Hnss]; try discriminate;
      constructor.
    + cbn. intro H. apply in_app_or in H as [H|[H|H]]; [now specialize (Hb 10 H)|discriminate|].
      now apply (join_clean ns).
    + inversion Hp; subst. cbn [length] in Hl. eapply IH; eauto.
  - revert namess pss Hl Hn Hp. induction He as [|e es [Hw Hb] _ IH];
      intros namess pss Hl Hn Hp; destruct Hn as [|ns nss Hns Hnss]; try discriminate;
      inversion Hp; subst; cbn; constructor.
    + apply (split_words white _ _ ns); [|assumption]. cbn [fst].
      apply (line_word white [] (fst e)); auto.
      * intros c [].
      * intros c r E. now inversion E.
      * apply space_line. now apply join_line.
    + cbn [length] in Hl. apply IH; auto.
Qed.

