(** Programs with models that have been checked. *)
From Coq Require Import ZArith String List Lia Bool.
From Verif.Base Require Import Prelude Lemmas.
From Verif.Model Require Import Util Arith Pcm Fbank Srfft FbankInit Nnet Am Pool Fst Decoder Stt Main Loading Ieee IeeeFbank.
From Verif.Spec Require Import AudioSpec AmSpec PcmSpec TextSpec NnetSpec FbankSpec FstSpec DecoderSpec SttSpec TotalSpec SessionSpec LibmSpec ValueSpec LoadingSpec ProgramSpec EndSpec ListSpec CommandSpec PlainSpec ExpSpec LmPlainSpec CheckedSpec.
From Verif.Proof Require Import Loop Windows SttTotal FiniteCases EndToEnd EndList ExtractorUse Command CommandUse PlainCosts PlainUse ExpUse Lm LmPlain LmCosts SttCut.
From Verif.Proof Require ListCases.
Import ListNotations.
Open Scope Z_scope.

Section Checked.
Variables (lib : library) (M : trig_library) (junk : nat -> float32) (junk_int : nat -> Z) (tenth : float32) (of_word : Z -> float32).
Variables (lm_fuel : nat) (m : model (graph float32)) (blocks : list (block Z)) (k : Z) (ls : list (layer Z)).
Notation O := (ieee lib).
Notation X := ieee_wide.
Hypothesis HM : libm M.
Hypothesis Slg : sane_log lib.
Hypothesis Se : sane_exp lib.
Hypothesis Cm : checked_model lib of_word lm_fuel tenth m blocks k ls.

Lemma weights : exists wm good, model_words O of_word lm_fuel m wm good /\ weights_of O of_word m wm.
Proof.
  unfold weights_of. destruct (m_lm m) as [(costs & t)|] eqn:E.
  - destruct (cm_lm _ _ _ _ _ _ _ _ Cm costs t E) as (Sl & Ml & Lf).
    destruct (init_spec (map_weights of_word t) (sl_model _ _ _ _ _ Sl)) as (table & Et & _).
    assert (Lf' : (List.length (t_states (map_weights of_word t)) <= lm_fuel)%nat) by (unfold map_weights; cbn [t_states]; now rewrite map_length).
    eexists _, _. split; [exact (with_lm O of_word lm_fuel m costs t table E Et)|]. eexists. split; [reflexivity|].
    exact (words_back_off O _ _ _ _ _ table lm_fuel Et Sl Lf').
  - exists None. eexists. split; [exact (without_lm O of_word lm_fuel m E)|reflexivity].
Qed.

Lemma rows_moderate : forall rc bits xs rows,
  made_of O of_word (ieee_trig M) (ieee_init M) junk junk_int lm_fuel m rc -> (Z.to_nat (bits / 8) <= 4)%nat -> Forall (fits (Z.to_nat (bits / 8))) xs ->
  rows_of O rc (left_context blocks) (right_context blocks) (map (f_int O) xs) rows ->
  Forall (fun r => lenZ r = lenZ (m_prior m)) rows /\ Forall (Forall moderate) rows /\ lenZ rows = Z.of_nat (num_windows 400 160 (List.length xs)).
Proof.
  intros rc bits xs rows Hrc Hb Fx Hrows. pose proof (network_am_fits O of_word m blocks _ _ _ _ _ rc (cm_network _ _ _ _ _ _ _ _ Cm) Hrc) as Af.
  pose proof Hrc as (_ & _ & _ & _ & B4 & B5 & _ & _ & _ & B9 & _).
  pose proof (rows_width _ _ O rc _ _ _ _ _ _ (audio_features lib M junk junk_int _ rc _ xs HM B9 Hb Fx) Af Hrows) as Wd.
  split; [|split].
  - assert (Ew : lenZ (am_prior (rc_am rc)) = lenZ (m_prior m)) by (rewrite B4; unfold lenZ; now rewrite map_length). now rewrite Ew in Wd.
  - apply (mild_rows lib _ rc (left_context blocks) (right_context blocks) (map (layer_numbers of_word) ls) (map (f_int O) xs) rows Se); auto.
    + rewrite B5, (cm_layers _ _ _ _ _ _ _ _ Cm), layers_snoc. reflexivity.
    + rewrite B4. apply Forall_map. exact (cm_prior _ _ _ _ _ _ _ _ Cm).
    + intros feats w y F2 J E. apply (cm_mild _ _ _ _ _ _ _ _ Cm w y); [exact (SttTotal.windows_one _ _ _ _ J)| |exact E].
      apply (SttTotal.windows_uniform _ (S (left_context blocks + right_context blocks)) 1 _ (padded (left_context blocks) (right_context blocks) feats)); [|exact J].
      apply SttTotal.padded_forall. exact (feats_bounded lib M junk junk_int _ _ xs feats HM Slg B9 Hb Fx F2).
  - rewrite (rows_count _ _ _ _ _ _ _ _ Hrows), map_length. reflexivity.
Qed.

(** On such rows a decoder has what it needs. *)
Lemma run_checked : forall rc wm good rows,
  made_of O of_word (ieee_trig M) (ieee_init M) junk junk_int lm_fuel m rc -> model_words O of_word lm_fuel m wm good ->
  Forall (fun r => lenZ r = lenZ (m_prior m)) rows -> Forall (Forall moderate) rows ->
  (lenZ rows + 1) * (k + 1) < 100000 -> one_word (m_graph m) \/ lenZ rows <= 20 ->
  let cfg := utt_config O tenth rc in
  exists states,
    run_fits O X cfg wm good rows states /\ (forall fuel, run_safe O X cfg fuel (rc_cache rc) rows) /\
    lively cfg states /\ finite_costs O X cfg wm rows /\ brief O X cfg wm rows /\ ends cfg states /\ EndSpec.listed m states.
Proof.
  intros rc wm good rows Hrc Mw Wd Hm Hl Hs cfg.
  destruct (model_lm _ O of_word lm_fuel m _ _ _ _ rc wm good Hrc Mw) as (Hlm & Gc).
  assert (Hlm' : lm_implements (c_lm cfg) wm good) by exact Hlm.
  pose proof Hrc as (B0 & _ & _ & _ & _ & _ & B6 & _ & _ & _ & B10).
  assert (Eg : c_graph cfg = m_graph m) by exact B0. assert (Ep : c_pdf cfg = m_tid2pdf m) by exact B6.
  assert (Sg' : sound_graph (c_graph cfg) (c_pdf cfg) (lenZ (m_prior m))) by (rewrite Eg, Ep; exact (cm_graph _ _ _ _ _ _ _ _ Cm)).
  assert (Sf : forall fuel, run_safe O X cfg fuel (rc_cache rc) rows).
  { intros fuel. apply (slow_safe O X cfg wm good Hlm' fuel (rc_cache rc) rows Gc).
    destruct Hs as [H1|H20]; [apply one_slow; rewrite Eg; exact H1|now apply few_slow]. }
  assert (Mc : (forall w l x l' c, wm = Some w -> wm_next w l x = Some (l', c) -> moderate c) -> moderate_costs cfg wm k rows).
  { intros Hw. constructor.
    - intros s a J. rewrite Eg in J. exact (proj1 (cm_arcs _ _ _ _ _ _ _ _ Cm s a J)).
    - exact (cm_tenth _ _ _ _ _ _ _ _ Cm).
    - exact Hm.
    - exact Hw.
    - rewrite Eg. exact (cm_silence _ _ _ _ _ _ _ _ Cm).
    - lia. }
  assert (Ls : forall states, EndSpec.listed m states).
  { intros states s a _ J NZ. exact (proj2 (cm_arcs _ _ _ _ _ _ _ _ Cm _ a J) NZ). }
  destruct Mw as [Nlm|costs t table Elm Et lm].
  - rewrite Nlm in B10. assert (El : c_lm cfg = None) by exact B10.
    destruct (sound_fits O X cfg (fun _ => True) (lenZ (m_prior m)) El Sg' rows Wd) as (Rf & Li).
    assert (Mc' : moderate_costs cfg None k rows) by (apply Mc; intros w l x l' c E; discriminate E).
    exists (all_states (c_graph cfg)). split; [exact Rf|]. split; [exact Sf|]. split; [exact Li|].
    split; [exact (moderate_finite lib _ cfg None k rows Mc')|]. split; [exact (moderate_brief lib _ cfg None k rows Mc' Hl)|].
    split; [now apply no_ends|apply Ls].
  - rewrite Elm in B10. cbv zeta in B10. destruct B10 as (table' & Et' & B10 & _). rewrite Et in Et'. injection Et' as <-.
    destruct (cm_lm _ _ _ _ _ _ _ _ Cm costs t Elm) as (Sl & Ml & Lf).
    set (small := map of_word costs) in *. set (large := map_weights of_word t) in *.
    assert (Lf' : (List.length (t_states large) <= lm_fuel)%nat) by (unfold large, map_weights; cbn [t_states]; now rewrite map_length).
    assert (El : c_lm cfg = Some (cached_lm O lm_fuel lm)) by exact B10.
    assert (Sl' : sound_lm (c_graph cfg) small large (m_bos m) (m_eos m)) by (rewrite Eg; exact Sl).
    destruct (lm_fits O X cfg small large (m_bos m) (m_eos m) table lm_fuel (lenZ (m_prior m)) El Et Sg' Sl' Lf' rows Wd) as (Rf & Li & En).
    assert (Mc' : moderate_costs cfg (Some (delta_words O lm_fuel lm)) k rows).
    { apply Mc. intros w l x l' c E Q. injection E as <-.
      apply (asked 2200 (2 ^ (1024 + 2200)) (Z.le_refl _) (Z.le_refl _) lib (m_graph m) small large (m_bos m) (m_eos m) table lm_fuel Et
        (ex_intro _ _ (sg_start _ _ _ (cm_graph _ _ _ _ _ _ _ _ Cm))) Sl Ml Lf' l x l' c Q). }
    exists (all_pairs (c_graph cfg) large). split; [exact Rf|]. split; [exact Sf|]. split; [exact Li|].
    split; [exact (moderate_finite lib _ cfg _ k rows Mc')|]. split; [exact (moderate_brief lib _ cfg _ k rows Mc' Hl)|].
    split; [exact En|apply Ls].
Qed.

Lemma short_decodable : forall rc wm good content,
  made_of O of_word (ieee_trig M) (ieee_init M) junk junk_int lm_fuel m rc -> model_words O of_word lm_fuel m wm good ->
  short_wav m k content -> decodable O X tenth m wm good blocks rc content.
Proof.
  intros rc wm good content Hrc Mw (bits & chunk & size & data & xs & rest & Ec & Hsz & Hby & Dx & Hl & Hs).
  split; [exists bits, chunk, size, data, xs, rest; auto|].
  intros rows (bits' & chunk' & size' & data' & xs' & rest' & Ec' & Hsz' & _ & Dx' & Hrows).
  rewrite Ec in Ec'. destruct (ListCases.wav_inj _ _ _ _ _ _ _ _ Hsz Hsz' Ec') as (<- & <-).
  assert (Hb : (0 < Z.to_nat (bits / 8) <= 4)%nat).
  { destruct Hsz as (A3 & _). destruct A3 as [-> |[-> | ->]]; cbn; lia. }
  assert (xs' = xs) as ->.
  { destruct Dx as (D1 & D2 & D3). destruct Dx' as (D1' & D2' & D3').
    apply (decodes_unique (Z.to_nat (bits / 8)) (proj1 Hb) xs' xs rest' rest); auto. congruence. }
  destruct (rows_moderate rc bits xs rows Hrc (proj2 Hb) (proj1 (proj2 Dx)) Hrows) as (Wd & Hm & Ln).
  cbv zeta in *. rewrite <- Ln in Hl, Hs.
  exact (run_checked rc wm good rows Hrc Mw Wd Hm Hl Hs).
Qed.
End Checked.

Lemma checked_list : forall lib M junk junk_int tenth of_word unknown files hclg why lm_fuel header_error fn m blocks k ls,
  let O := ieee lib in let X := ieee_wide in
  libm M -> close_logf M -> sane_log lib -> sane_exp lib ->
  stored O of_word files hclg fn m -> checked_model lib of_word lm_fuel tenth m blocks k ls ->
  exists rc wm, made_of O of_word (ieee_trig M) (ieee_init M) junk junk_int lm_fuel m rc /\ weights_of O of_word m wm /\
  forall input entries,
  ~ ends_in input (lit ".wav") -> 4 <= lenZ input -> files input = Some (list_file entries) -> Forall ProgramSpec.entry_ok entries ->
  Forall (fun e => exists content, files (snd e) = Some content /\ short_wav m k content) entries ->
  exists fuel0 hyps,
    Forall2 (fun e hyp => exists content, files (snd e) = Some content /\ heard O X tenth m wm blocks rc content hyp) entries hyps /\
    forall fuel, (fuel0 <= fuel)%nat ->
      run_main O X tenth fuel files
        (stt_load O (ieee_trig M) (ieee_init M) junk junk_int of_word unknown files hclg why lm_fuel) header_error [fn; input]
      = Ok (printed entries hyps, 0).
Proof.
  intros lib M junk junk_int tenth of_word unknown files hclg why lm_fuel header_error fn m blocks k ls O X HM HC Slg Se St Cm.
  destruct (weights lib tenth of_word lm_fuel m blocks k ls Cm) as (wm & good & Mw & Hw).
  destruct (list_text lib M junk junk_int tenth of_word unknown files hclg why lm_fuel header_error fn m blocks HM HC St (cm_network _ _ _ _ _ _ _ _ Cm)
    wm good Mw) as (rc & Hrc & H).
  exists rc, wm. split; [exact Hrc|]. split; [exact Hw|]. intros input entries A1 A2 A3 A4 A5. apply (H input entries A1 A2 A3 A4).
  eapply Forall_impl; [|exact A5]. intros e (content & E & Sw). exists content. split; [exact E|].
  exact (short_decodable lib M junk junk_int tenth of_word lm_fuel m blocks k ls HM Slg Se Cm rc wm good content Hrc Mw Sw).
Qed.

Lemma checked_file : forall lib M junk junk_int tenth of_word unknown files hclg why lm_fuel header_error fn m blocks k ls,
  let O := ieee lib in let X := ieee_wide in
  libm M -> close_logf M -> sane_log lib -> sane_exp lib ->
  stored O of_word files hclg fn m -> checked_model lib of_word lm_fuel tenth m blocks k ls ->
  exists wm, weights_of O of_word m wm /\
  forall input content, ends_in input (lit ".wav") -> files input = Some content -> short_wav m k content ->
  exists rc fuel0 hyp, made_of O of_word (ieee_trig M) (ieee_init M) junk junk_int lm_fuel m rc /\
    heard O X tenth m wm blocks rc content hyp /\
    forall fuel, (fuel0 <= fuel)%nat ->
      run_main O X tenth fuel files
        (stt_load O (ieee_trig M) (ieee_init M) junk junk_int of_word unknown files hclg why lm_fuel) header_error [fn; input]
      = Ok (hyp ++ [10], 0).
Proof.
  intros lib M junk junk_int tenth of_word unknown files hclg why lm_fuel header_error fn m blocks k ls O X HM HC Slg Se St Cm.
  destruct (weights lib tenth of_word lm_fuel m blocks k ls Cm) as (wm & good & Mw & Hw).
  exists wm. split; [exact Hw|]. intros input content A1 A2 Sw.
  pose proof Sw as (bits & chunk & size & data & xs & rest & -> & Hsz & Hby & Dx & Hl & Hs).
  assert (Hbd : byte_list data) by (unfold wav, byte_list in Hby; apply Forall_app in Hby; tauto).
  destruct (built_text lib M junk junk_int tenth of_word unknown files hclg why lm_fuel header_error fn m blocks HM HC St (cm_network _ _ _ _ _ _ _ _ Cm)
    wm good Mw input bits chunk size data xs rest A1 A2 Hsz Hbd Dx) as (rc & rows & Hrc & Hrows & K).
  assert (Hb : (Z.to_nat (bits / 8) <= 4)%nat).
  { destruct Hsz as (A3 & _). destruct A3 as [-> |[-> | ->]]; cbn; lia. }
  destruct (rows_moderate lib M junk junk_int tenth of_word lm_fuel m blocks k ls HM Slg Se Cm rc bits xs rows Hrc Hb (proj1 (proj2 Dx)) Hrows) as (Wd & Hm & Ln).
  cbv zeta in *. rewrite <- Ln in Hl, Hs.
  destruct (run_checked lib M junk junk_int tenth of_word lm_fuel m blocks k ls Cm rc wm good rows Hrc Mw Wd Hm Hl Hs) as (states & P1 & P2 & P3 & P4 & P5 & P6 & P7).
  destruct (K states P1 P2 P3 P4 P5 P6 P7) as (fuel0 & words & names & Q1 & Q2 & Q3).
  exists rc, fuel0, (join [32] names). split; [exact Hrc|]. split; [|exact Q3].
  exists rows, words, names. split; [|split; [reflexivity|split; [exact Q1|exact Q2]]].
  exists bits, chunk, size, data, xs, rest. auto 6.
Qed.
