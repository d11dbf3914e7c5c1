(** Decoders and recognizers with sound graphs. *)
From Coq Require Import ZArith String List Lia Bool.
From Verif.Base Require Import Prelude Lemmas.
From Verif.Model Require Import Util Arith Pcm Fbank Srfft FbankInit Nnet Am Pool Fst Decoder Stt Main Loading Ieee IeeeFbank.
From Verif.Spec Require Import AudioSpec AmSpec PcmSpec TextSpec NnetSpec FbankSpec DecoderSpec SttSpec TotalSpec SessionSpec LibmSpec ValueSpec LoadingSpec ProgramSpec EndSpec CommandSpec PlainSpec.
From Verif.Proof Require Import Loop Windows SttTotal FiniteCases EndToEnd Command CommandUse PlainCosts.
Import ListNotations.
Open Scope Z_scope.

Section Sound.
Context {F D C : Type}.
Variables (O : fops F) (X : xops F D) (cfg : config F C) (good : C -> Prop).
Notation g := (c_graph cfg).
Variable width : Z.
Hypothesis Hlm : c_lm cfg = None.
Hypothesis Hg : sound_graph g (c_pdf cfg) width.

Lemma in_all : forall s, In s (all_states g) <-> 0 <= Datatypes.fst s < lenZ (g_states g) /\ snd s = 0.
Proof.
  intros [s l]. unfold all_states. rewrite in_map_iff. cbn [Datatypes.fst snd]. split.
  - intros (n & E & J). apply in_seq in J. injection E as <- <-. unfold lenZ. lia.
  - intros ((A & B) & ->). exists (Z.to_nat s). split; [f_equal; lia|]. apply in_seq. unfold lenZ in B. lia.
Qed.

Lemma all_proper : forall s, In s (all_states g) -> proper cfg s /\ answers cfg good s.
Proof.
  intros s J. apply in_all in J. destruct J as (B & E). pose proof (sg_few _ _ _ Hg). split.
  - unfold proper. rewrite E. lia.
  - intros a m c _ _ Em. rewrite Hlm in Em. discriminate Em.
Qed.

Lemma all_few : lenZ (all_states g) <= 32766.
Proof. unfold all_states, lenZ. rewrite map_length, seq_length. exact (sg_few _ _ _ Hg). Qed.

Lemma all_next : forall s a, In s (all_states g) -> arc_from g (Datatypes.fst s) a -> In (arrival O None s a) (all_states g).
Proof.
  intros s a J Af. apply in_all in J. destruct J as (_ & E). apply in_all. unfold arrival. cbn [Datatypes.fst snd lm_after].
  split; [exact (sg_next _ _ _ Hg _ _ Af)|exact E].
Qed.

Lemma sound_fits : forall rows, Forall (fun r => lenZ r = width) rows ->
  run_fits O X cfg None good rows (all_states g) /\ lively cfg (all_states g).
Proof.
  intros rows Hr. split; [constructor|].
  - apply in_all. split; [exact (sg_start _ _ _ Hg)|reflexivity].
  - intros m E. rewrite Hlm in E. discriminate E.
  - constructor; [exact all_few|intros s []|exact all_proper|intros s a []|]. intros s a J Af _. now apply all_next.
  - intros logp J. constructor; [exact all_few|exact all_proper|exact all_proper| |].
    + intros s a Js Af NZ. split; [now apply all_next|]. destruct (sg_labels _ _ _ Hg _ _ Af NZ) as (N & p & Ep & B).
      rewrite Forall_forall in Hr. specialize (Hr _ J).
      destruct (nth_error logp (Z.to_nat p)) as [x|] eqn:Ex.
      * eexists. exists p, x. repeat split; try assumption; lia.
      * apply nth_error_None in Ex. unfold lenZ in Hr. lia.
    + intros s a Js Af _. now apply all_next.
  - intros s J. apply in_all in J. exact (sg_alive _ _ _ Hg _ (proj1 J)).
Qed.

Lemma no_ends : forall R, ends cfg R.
Proof. intros R s m _ E. rewrite Hlm in E. discriminate E. Qed.
End Sound.

Lemma rows_width : forall F C (O : fops F) (rc : recognizer F C) L R c d samples rows,
  features_fit O rc d samples -> am_fits rc L R c d -> rows_of O rc L R samples rows ->
  Forall (fun r => lenZ r = lenZ (am_prior (rc_am rc))) rows.
Proof.
  intros F C O rc L R c d samples rows Hf Ha (feats & H1 & H2).
  assert (U : uniform d feats).
  { unfold features_fit in Hf. clear - Hf H1. induction H1 as [|w r ws fs (b & Er) _ IH]; constructor.
    - destruct (Hf w (or_introl eq_refl)) as (r' & b' & Er' & Lr). congruence.
    - apply IH. intros w' J. apply Hf. now right. }
  assert (W : forall w, In w (windows (S (L + R)) 1 (padded L R feats)) ->
    exists r, am_nnet (rc_am rc) w = Ok [r] /\ List.length r = List.length (am_prior (rc_am rc))).
  { intros w J. apply (af_net _ _ _ _ _ Ha); [|eapply windows_one; eauto].
    refine (windows_uniform _ _ _ _ _ _ w J). now apply padded_forall. }
  clear - H2 W. induction H2 as [|w row ws rows (r & Er & Lr & _) _ IH]; constructor.
  - destruct (W w (or_introl eq_refl)) as (r' & Er' & Lr'). unfold lenZ. replace r' with r in * by congruence. lia.
  - apply IH. intros w' J. apply W. now right.
Qed.

Lemma plain_printed : forall lib M junk junk_int tenth of_word unknown files hclg why lm_fuel header_error fn m blocks k,
  let O := ieee lib in let X := ieee_wide in
  libm M -> close_logf M -> stored O of_word files hclg fn m -> network_fits m blocks -> one_word (m_graph m) ->
  m_lm m = None -> sound_graph (m_graph m) (m_tid2pdf m) (lenZ (m_prior m)) ->
  (forall s a, arc_from (m_graph m) s a -> moderate (weight a) /\ (output_label a <> 0 -> exists name, In (name, output_label a) (m_words m))) ->
  in32 (1, 0) tenth -> short_silence (m_graph m) k ->
  forall input bits chunk size data xs rest,
  ends_in input (lit ".wav") -> files input = Some (wav bits chunk size data) -> wav_sizes bits chunk size -> byte_list data ->
  AudioSpec.decodes (Z.to_nat (bits / 8)) data xs rest ->
  exists rc rows,
    made_of O of_word (ieee_trig M) (ieee_init M) junk junk_int lm_fuel m rc /\
    rows_of O rc (left_context blocks) (right_context blocks) (map (f_int O) xs) rows /\
  (Forall (Forall moderate) rows -> (lenZ rows + 1) * (k + 1) <= 4194304 ->
  exists fuel0 out,
    (out = [] \/ exists w s c total, In (out, w) (m_words m) /\
       path O X (m_graph m) (m_tid2pdf m) tenth None (rev rows) s c [w] /\
       ending X (m_graph m) None true s c total /\ x_is_inf X total = false) /\
    forall fuel, (fuel0 <= fuel)%nat ->
      run_main O X tenth fuel files
        (stt_load O (ieee_trig M) (ieee_init M) junk junk_int of_word unknown files hclg why lm_fuel) header_error [fn; input]
      = Ok (out ++ [10], 0)).
Proof.
  intros lib M junk junk_int tenth of_word unknown files hclg why lm_fuel header_error fn m blocks k O X HM HC St Nf H1 Nlm Sg Ha Ht Hk
    input bits chunk size data xs rest A1 A2 A3 A4 A5.
  destruct (one_printed lib M junk junk_int tenth of_word unknown files hclg why lm_fuel header_error fn m blocks HM HC St Nf H1 None _
    (without_lm O of_word lm_fuel m Nlm) input bits chunk size data xs rest A1 A2 A3 A4 A5) as (rc & rows & Hrc & Hrows & K).
  exists rc, rows. split; [exact Hrc|]. split; [exact Hrows|]. intros Hm Hl.
  pose proof (network_am_fits O of_word m blocks _ _ _ _ _ rc Nf Hrc) as Af.
  pose proof Hrc as (B0 & _ & _ & _ & B4 & _ & B6 & _ & _ & B9 & B10). rewrite Nlm in B10.
  assert (Hb : (Z.to_nat (bits / 8) <= 4)%nat).
  { destruct A3 as (A3 & _). destruct A3 as [-> |[-> | ->]]; cbn; lia. }
  pose proof (rows_width _ _ O rc _ _ _ _ _ _ (audio_features lib M junk junk_int _ rc _ xs HM B9 Hb (proj1 (proj2 A5))) Af Hrows) as Wd.
  assert (Ew : lenZ (am_prior (rc_am rc)) = lenZ (m_prior m)) by (rewrite B4; unfold lenZ; now rewrite map_length). rewrite Ew in Wd.
  set (cfg := utt_config O tenth rc).
  assert (Eg : c_graph cfg = m_graph m) by exact B0. assert (Ep : c_pdf cfg = m_tid2pdf m) by exact B6. assert (El : c_lm cfg = None) by exact B10.
  assert (Sg' : sound_graph (c_graph cfg) (c_pdf cfg) (lenZ (m_prior m))) by (rewrite Eg, Ep; exact Sg).
  destruct (sound_fits O X cfg (fun _ => True) (lenZ (m_prior m)) El Sg' rows Wd) as (Rf & Li).
  apply (K (all_states (c_graph cfg)) Rf Li).
  - apply (moderate_finite lib _ cfg None k rows). constructor.
    + intros s a J. rewrite Eg in J. exact (proj1 (Ha s a J)).
    + exact Ht.
    + exact Hm.
    + intros w l x l' c E. discriminate E.
    + rewrite Eg. exact Hk.
    + exact Hl.
  - now apply no_ends.
  - intros s a _ J NZ. exact (proj2 (Ha _ a J) NZ).
Qed.
