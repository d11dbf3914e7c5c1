(** A sound graph with moderate numbers. *)
From Coq Require Import ZArith String List Lia Bool Floats.SpecFloat.
From Verif.Base Require Import Prelude Lemmas.
From Verif.Model Require Import Util Arith Pcm Fbank Srfft FbankInit Nnet Am Pool Fst Decoder Stt Main Loading Ieee IeeeFbank.
From Verif.Spec Require Import AudioSpec AmSpec DecoderSpec TotalSpec LibmSpec LoadingSpec EndSpec CommandSpec PlainSpec.
From Verif.Proof Require Import IeeeCases TotalCases EndCases FiniteCases CommandUse PlainCosts PlainUse.
Import ListNotations.
Open Scope Z_scope.

Lemma sound13 : sound_graph (m_graph model13) (m_tid2pdf model13) (lenZ (m_prior model13)).
Proof.
  change (sound_graph graph13 [0; 0; 1] 2).
  constructor.
  - cbn. lia.
  - cbn. lia.
  - intros s a Af. apply arcs13 in Af. destruct Af as [(_ & [-> | ->])|[(_ & [-> | ->])|(_ & ->)]]; cbn; lia.
  - intros s a Af NZ. apply arcs13 in Af.
    destruct Af as [(_ & [-> | ->])|[(_ & [-> | ->])|(_ & ->)]]; cbn [input_label] in *; try lia; (split; [lia|]).
    + exists 0. split; [reflexivity|lia].
    + exists 0. split; [reflexivity|lia].
    + exists 1. split; [reflexivity|lia].
    + exists 1. split; [reflexivity|lia].
  - intros s Hs. change (lenZ (g_states graph13)) with 3 in Hs.
    assert (E : s = 0 \/ s = 1 \/ s = 2) by lia. destruct E as [-> |[-> | ->]];
      [exists (mk_arc 0 1 0 (tenth 7))|exists (mk_arc 1 1 0 (tenth 1))|exists (mk_arc 2 2 0 (tenth 0))];
      (split; [split; [lia|]; eexists; eexists; (split; [reflexivity|cbn; auto])|discriminate]).
Qed.

Lemma tenth_moderate : forall z, In z [7; 2; 1; -1; 0; -3] -> moderate (tenth z).
Proof.
  intros z J. repeat (destruct J as [<-|J]; [split; vm_compute; reflexivity|]). destruct J.
Qed.

Lemma arcs_fine13 : forall s a, arc_from (m_graph model13) s a ->
  moderate (weight a) /\ (output_label a <> 0 -> exists name, In (name, output_label a) (m_words model13)).
Proof.
  intros s a Af. apply arcs13 in Af. split.
  - destruct Af as [(_ & [-> | ->])|[(_ & [-> | ->])|(_ & ->)]]; cbn [weight]; apply tenth_moderate; cbn; tauto.
  - destruct Af as [(_ & [-> | ->])|[(_ & [-> | ->])|(_ & ->)]]; cbn [output_label]; try lia. intros _. exists (lit "so"). cbn. tauto.
Qed.

Lemma silence13 : short_silence (m_graph model13) 1.
Proof.
  intros s n t H. assert (G : (n = 0 /\ t = s) \/ (n = 1 /\ t = 1)); [|lia].
  induction H as [|n t a H IH Af Z0]; [now left|]. apply arcs13 in Af. right.
  destruct Af as [(E & [-> | ->])|[(E & [-> | ->])|(E & ->)]]; cbn [input_label next_state] in *; try discriminate Z0.
  destruct IH as [(-> & _)|(_ & E')]; lia.
Qed.

Lemma costs13 : forall C, moderate_costs (config13 C) None 1 (repeat row9 1000).
Proof.
  intros C. constructor.
  - intros s a Af. exact (proj1 (arcs_fine13 s a Af)).
  - split; vm_compute; reflexivity.
  - apply Forall_forall. intros r J. apply repeat_spec in J. subst r.
    repeat constructor; vm_compute; reflexivity.
  - intros w l x l' c E. discriminate E.
  - exact silence13.
  - unfold lenZ. rewrite repeat_length. lia.
Qed.

Lemma plain13 : in32 (1, 0) (tenth 1) /\ m_lm model13 = None /\ Forall (Forall moderate) [row9; row9] /\ (lenZ [row9; row9] + 1) * (1 + 1) <= 4194304.
Proof.
  split; [split; vm_compute; reflexivity|]. split; [reflexivity|]. split; [|cbn; lia].
  repeat constructor; vm_compute; reflexivity.
Qed.
