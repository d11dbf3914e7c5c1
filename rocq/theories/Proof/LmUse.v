(** Programs with sound graphs and language models. *)
From Coq Require Import ZArith String List Lia Bool.
From Verif.Base Require Import Prelude Lemmas.
From Verif.Model Require Import Util Arith Pcm Fbank Srfft FbankInit Nnet Am Pool Fst Decoder Stt Main Loading Ieee IeeeFbank.
From Verif.Spec Require Import AudioSpec AmSpec PcmSpec TextSpec NnetSpec FbankSpec FstSpec DecoderSpec SttSpec TotalSpec SessionSpec LibmSpec ValueSpec LoadingSpec ProgramSpec EndSpec CommandSpec PlainSpec ExpSpec LmPlainSpec.
From Verif.Proof Require Import Loop Windows SttTotal FiniteCases EndToEnd Command CommandUse PlainCosts PlainUse ExpUse Lm LmPlain LmCosts.
Import ListNotations.
Open Scope Z_scope.

Lemma lm_printed : forall lib M junk junk_int tenth of_word unknown files hclg why lm_fuel header_error fn m blocks k costs t,
  let O := ieee lib in let X := ieee_wide in let small := map of_word costs in let large := map_weights of_word t in
  libm M -> close_logf M -> stored O of_word files hclg fn m -> network_fits m blocks -> one_word (m_graph m) ->
  m_lm m = Some (costs, t) -> sound_graph (m_graph m) (m_tid2pdf m) (lenZ (m_prior m)) ->
  sound_lm (m_graph m) small large (m_bos m) (m_eos m) -> moderate_lm small large -> (List.length (t_states t) <= lm_fuel)%nat ->
  (forall s a, arc_from (m_graph m) s a -> moderate (weight a) /\ (output_label a <> 0 -> exists name, In (name, output_label a) (m_words m))) ->
  in32 (1, 0) tenth -> short_silence (m_graph m) k ->
  exists wm, back_off_words O small large (m_bos m) (m_eos m) wm /\
  forall input bits chunk size data xs rest,
  ends_in input (lit ".wav") -> files input = Some (wav bits chunk size data) -> wav_sizes bits chunk size -> byte_list data ->
  AudioSpec.decodes (Z.to_nat (bits / 8)) data xs rest ->
  exists rc rows,
    made_of O of_word (ieee_trig M) (ieee_init M) junk junk_int lm_fuel m rc /\
    rows_of O rc (left_context blocks) (right_context blocks) (map (f_int O) xs) rows /\
  (Forall (Forall moderate) rows -> (lenZ rows + 1) * (k + 1) <= 4194304 ->
  exists fuel0 out,
    (out = [] \/ exists w s c total, In (out, w) (m_words m) /\
       path O X (m_graph m) (m_tid2pdf m) tenth (Some wm) (rev rows) s c [w] /\
       ending X (m_graph m) (Some wm) true s c total /\ x_is_inf X total = false) /\
    forall fuel, (fuel0 <= fuel)%nat ->
      run_main O X tenth fuel files
        (stt_load O (ieee_trig M) (ieee_init M) junk junk_int of_word unknown files hclg why lm_fuel) header_error [fn; input]
      = Ok (out ++ [10], 0)).
Proof.
  intros lib M junk junk_int tenth of_word unknown files hclg why lm_fuel header_error fn m blocks k costs t O X small large
    HM HC St Nf H1 Elm Sg Sl Ml Lf Ha Ht Hk.
  assert (Lf' : (List.length (t_states large) <= lm_fuel)%nat) by (unfold large, map_weights; cbn [t_states]; rewrite map_length; exact Lf).
  destruct (init_spec large (sl_model _ _ _ _ _ Sl)) as (table & Et & _).
  set (lm := lm_of small large (m_bos m) (m_eos m) table).
  exists (delta_words O lm_fuel lm). split; [exact (words_back_off O _ small large _ _ table lm_fuel Et Sl Lf')|].
  intros input bits chunk size data xs rest A1 A2 A3 A4 A5.
  destruct (one_printed lib M junk junk_int tenth of_word unknown files hclg why lm_fuel header_error fn m blocks HM HC St Nf H1
    (Some (delta_words O lm_fuel lm)) (true_cache O lm_fuel lm)
    (with_lm O of_word lm_fuel m costs t table Elm Et) input bits chunk size data xs rest A1 A2 A3 A4 A5) as (rc & rows & Hrc & Hrows & K).
  exists rc, rows. split; [exact Hrc|]. split; [exact Hrows|]. intros Hm Hl.
  pose proof (network_am_fits O of_word m blocks _ _ _ _ _ rc Nf Hrc) as Af.
  pose proof Hrc as (B0 & _ & _ & _ & B4 & _ & B6 & _ & _ & B9 & B10). rewrite Elm in B10. cbv zeta in B10.
  destruct B10 as (table' & Et' & B10 & _). fold large in Et'. rewrite Et in Et'. injection Et' as <-.
  assert (Hb : (Z.to_nat (bits / 8) <= 4)%nat).
  { destruct A3 as (A3 & _). destruct A3 as [-> |[-> | ->]]; cbn; lia. }
  pose proof (rows_width _ _ O rc _ _ _ _ _ _ (audio_features lib M junk junk_int _ rc _ xs HM B9 Hb (proj1 (proj2 A5))) Af Hrows) as Wd.
  assert (Ew : lenZ (am_prior (rc_am rc)) = lenZ (m_prior m)) by (rewrite B4; unfold lenZ; now rewrite map_length). rewrite Ew in Wd.
  set (cfg := utt_config O tenth rc).
  assert (Eg : c_graph cfg = m_graph m) by exact B0. assert (Ep : c_pdf cfg = m_tid2pdf m) by exact B6.
  assert (El : c_lm cfg = Some (cached_lm O lm_fuel lm)) by exact B10.
  assert (Sg' : sound_graph (c_graph cfg) (c_pdf cfg) (lenZ (m_prior m))) by (rewrite Eg, Ep; exact Sg).
  assert (Sl' : sound_lm (c_graph cfg) small large (m_bos m) (m_eos m)) by (rewrite Eg; exact Sl).
  destruct (lm_fits O X cfg small large (m_bos m) (m_eos m) table lm_fuel (lenZ (m_prior m)) El Et Sg' Sl' Lf' rows Wd) as (Rf & Li & En).
  apply (K (all_pairs (c_graph cfg) large) Rf Li).
  - apply (moderate_finite lib _ cfg _ k rows). constructor.
    + intros s a J. rewrite Eg in J. exact (proj1 (Ha s a J)).
    + exact Ht.
    + exact Hm.
    + intros w l x l' c E Q. injection E as <-.
      apply (asked 2200 (2 ^ (1024 + 2200)) (Z.le_refl _) (Z.le_refl _) lib (m_graph m) small large (m_bos m) (m_eos m) table lm_fuel Et
        (ex_intro _ _ (sg_start _ _ _ Sg)) Sl Ml Lf' l x l' c Q).
    + rewrite Eg. exact Hk.
    + exact Hl.
  - exact En.
  - intros s a _ J NZ. exact (proj2 (Ha _ a J) NZ).
Qed.

Lemma mild_lm_printed : forall lib M junk junk_int tenth of_word unknown files hclg why lm_fuel header_error fn m blocks k costs t ls,
  let O := ieee lib in let X := ieee_wide in let small := map of_word costs in let large := map_weights of_word t in
  libm M -> close_logf M -> sane_log lib -> sane_exp lib ->
  stored O of_word files hclg fn m -> network_fits m blocks -> one_word (m_graph m) ->
  m_lm m = Some (costs, t) -> sound_graph (m_graph m) (m_tid2pdf m) (lenZ (m_prior m)) ->
  sound_lm (m_graph m) small large (m_bos m) (m_eos m) -> moderate_lm small large -> (List.length (t_states t) <= lm_fuel)%nat ->
  (forall s a, arc_from (m_graph m) s a -> moderate (weight a) /\ (output_label a <> 0 -> exists name, In (name, output_label a) (m_words m))) ->
  in32 (1, 0) tenth -> short_silence (m_graph m) k ->
  m_layers m = ls ++ [LogSoftmax] -> Forall (fun w => in32 (1, 98) (f_log O (of_word w))) (m_prior m) ->
  (forall w y, List.length w = S (left_context blocks + right_context blocks) -> Forall (fun r => lenZ r = 40 /\ Forall (in32 (1, 7)) r) w ->
     nnet_propagate O (map (layer_numbers of_word) ls) w = Ok [y] -> mild y) ->
  exists wm, back_off_words O small large (m_bos m) (m_eos m) wm /\
  forall input bits chunk size data xs rest,
  ends_in input (lit ".wav") -> files input = Some (wav bits chunk size data) -> wav_sizes bits chunk size -> byte_list data ->
  AudioSpec.decodes (Z.to_nat (bits / 8)) data xs rest ->
  (Z.of_nat (num_windows 400 160 (List.length xs)) + 1) * (k + 1) <= 4194304 ->
  exists rc rows,
    made_of O of_word (ieee_trig M) (ieee_init M) junk junk_int lm_fuel m rc /\
    rows_of O rc (left_context blocks) (right_context blocks) (map (f_int O) xs) rows /\
  exists fuel0 out,
    (out = [] \/ exists w s c total, In (out, w) (m_words m) /\
       path O X (m_graph m) (m_tid2pdf m) tenth (Some wm) (rev rows) s c [w] /\
       ending X (m_graph m) (Some wm) true s c total /\ x_is_inf X total = false) /\
    forall fuel, (fuel0 <= fuel)%nat ->
      run_main O X tenth fuel files
        (stt_load O (ieee_trig M) (ieee_init M) junk junk_int of_word unknown files hclg why lm_fuel) header_error [fn; input]
      = Ok (out ++ [10], 0).
Proof.
  intros lib M junk junk_int tenth of_word unknown files hclg why lm_fuel header_error fn m blocks k costs t ls O X small large
    HM HC Slg Se St Nf H1 Elm Sg Sl Ml Lf Ha Ht Hk Hls Hp Hy.
  destruct (lm_printed lib M junk junk_int tenth of_word unknown files hclg why lm_fuel header_error fn m blocks k costs t
    HM HC St Nf H1 Elm Sg Sl Ml Lf Ha Ht Hk) as (wm & Bw & P). exists wm. split; [exact Bw|].
  intros input bits chunk size data xs rest A1 A2 A3 A4 A5 A6.
  destruct (P input bits chunk size data xs rest A1 A2 A3 A4 A5) as (rc & rows & Hrc & Hrows & K).
  pose proof (network_am_fits O of_word m blocks _ _ _ _ _ rc Nf Hrc) as Af.
  pose proof Hrc as (_ & _ & _ & _ & B4 & B5 & _ & _ & _ & B9 & _).
  assert (Hb : (Z.to_nat (bits / 8) <= 4)%nat).
  { destruct A3 as (A3 & _). destruct A3 as [-> |[-> | ->]]; cbn; lia. }
  pose proof (rows_width _ _ O rc _ _ _ _ _ _ (audio_features lib M junk junk_int _ rc _ xs HM B9 Hb (proj1 (proj2 A5))) Af Hrows) as Wd.
  exists rc, rows. split; [exact Hrc|]. split; [exact Hrows|]. apply K.
  - apply (mild_rows lib _ rc (left_context blocks) (right_context blocks) (map (layer_numbers of_word) ls) (map (f_int O) xs) rows Se); auto.
    + rewrite B5, Hls, layers_snoc. reflexivity.
    + rewrite B4. apply Forall_map. exact Hp.
    + intros feats w y F2 J E. apply (Hy w y); [exact (SttTotal.windows_one _ _ _ _ J)| |exact E].
      apply (SttTotal.windows_uniform _ (S (left_context blocks + right_context blocks)) 1 _ (padded (left_context blocks) (right_context blocks) feats)); [|exact J].
      apply SttTotal.padded_forall. exact (feats_bounded lib M junk junk_int _ _ xs feats HM Slg B9 Hb (proj1 (proj2 A5)) F2).
  - rewrite (rows_count _ _ _ _ _ _ _ _ Hrows), map_length. exact A6.
Qed.
