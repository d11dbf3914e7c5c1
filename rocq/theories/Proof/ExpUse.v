(** Programs whose network has mild activations. *)
From Coq Require Import ZArith String List Lia Bool.
From Verif.Base Require Import Prelude Lemmas.
From Verif.Model Require Import Util Arith Pcm Fbank Srfft FbankInit Nnet Am Pool Fst Decoder Stt Main Loading Ieee IeeeFbank.
From Verif.Spec Require Import AudioSpec AmSpec PcmSpec TextSpec NnetSpec FbankSpec DecoderSpec SttSpec TotalSpec SessionSpec LibmSpec ValueSpec LoadingSpec ProgramSpec EndSpec CommandSpec PlainSpec ExpSpec.
From Verif.Proof Require Import Loop Windows Ieee IeeeLaws FbankBound SttTotal FiniteCases EndToEnd PlainUse ExpLimits.
Import ListNotations.
Open Scope Z_scope.

Lemma propagate_snoc : forall F (O : fops F) ls l x old y, propagate_all O (ls ++ [l]) x old = Ok y ->
  exists z old', propagate_all O ls x old = Ok z /\ propagate O l z old' = Ok y.
Proof.
  intros F O ls l. induction ls as [|l0 ls IH]; intros x old y E; cbn [propagate_all app] in *.
  - destruct (propagate O l x old) as [m|] eqn:Em; [|discriminate E]. cbn [bind] in E. injection E as <-. exists x, old. auto.
  - destruct (propagate O l0 x old) as [m|]; [|discriminate E]. cbn [bind] in *. exact (IH _ _ _ E).
Qed.

Lemma mild_rows : forall lib C (rc : recognizer float32 C) L R ls samples rows,
  let O := ieee lib in
  sane_exp lib -> am_nnet (rc_am rc) = nnet_propagate O (ls ++ [LogSoftmax]) -> Forall (in32 (1, 98)) (am_prior (rc_am rc)) ->
  (forall feats w y, Forall2 (fun w r => exists b, fbank_process O (rc_fbank rc) [] w = Ok ([r], b)) (windows 400 160 samples) feats ->
     In w (windows (S (L + R)) 1 (padded L R feats)) -> nnet_propagate O ls w = Ok [y] -> mild y) ->
  rows_of O rc L R samples rows -> Forall (fun r => lenZ r = lenZ (am_prior (rc_am rc))) rows -> Forall (Forall moderate) rows.
Proof.
  intros lib C rc L R ls samples rows O Se Hn Hp Ha (feats & H1 & H2) Hq.
  assert (Hw : Forall (fun w => forall y, nnet_propagate O ls w = Ok [y] -> mild y) (windows (S (L + R)) 1 (padded L R feats))).
  { apply Forall_forall. intros w J y. exact (Ha feats w y H1 J). }
  clear H1 Ha. induction H2 as [|w row ws rows (r & Er & Hl & Hx) _ IH]; [constructor|].
  inversion Hw as [|? ? Hy Hw']; subst. inversion Hq as [|? ? Lq Hq']; subst. constructor; [|now apply IH]. clear IH Hw Hw' Hq Hq'.
  rewrite Hn in Er. unfold nnet_propagate in Er. destruct (propagate_snoc _ O ls LogSoftmax w [] [r] Er) as (z & old' & Ez & Ey).
  cbn [propagate] in Ey. destruct z as [|y [|y2 z]]; try discriminate Ey. cbn [map] in Ey.
  assert (Erow : r = apply_log_softmax O y) by congruence. subst r. pose proof (Hy y Ez) as My.
  pose proof (finite_at 2200 (2 ^ (1024 + 2200)) (Z.le_refl _) (Z.le_refl _) lib Se y My) as Hf.
  apply Forall_forall. intros v J. destruct (In_nth _ _ v J) as (i & Hi & <-). rewrite Hl in Hi. rewrite (Hx i v Hi).
  apply (minus_prior 2200 (2 ^ (1024 + 2200)) (Z.le_refl _) (Z.le_refl _)).
  - rewrite Forall_forall in Hf. apply Hf. now apply nth_In.
  - rewrite Forall_forall in Hp. apply Hp. apply nth_In. unfold lenZ in Lq. lia.
Qed.

(** The features of audio are at most 2 ^ 7. *)
Lemma feats_bounded : forall lib M junk junk_int fb n xs feats, libm M -> sane_log lib ->
  fbank_new (ieee lib) (ieee_trig M) (ieee_init M) junk junk_int = Ok fb -> (n <= 4)%nat -> Forall (fits n) xs ->
  Forall2 (fun w r => exists b, fbank_process (ieee lib) fb [] w = Ok ([r], b)) (windows 400 160 (map (f_int (ieee lib)) xs)) feats ->
  Forall (fun r => lenZ r = 40 /\ Forall (in32 (1, 7)) r) feats.
Proof.
  intros lib M junk junk_int fb n xs feats HM Sl E Hn H H1.
  assert (G : forall w, In w (windows 400 160 (map (f_int (ieee lib)) xs)) -> exists r b, fbank_process (ieee lib) fb [] w = Ok ([r], b) /\ lenZ r = 40 /\ Forall (in32 (1, 7)) r).
  { intros w J. destruct (window_features lib M HM junk junk_int fb E _ w (pcm_samples lib n xs Hn H) J) as (r & b & Eb & Lr & Br).
    exists r, b. split; [exact Eb|]. split; [unfold lenZ; rewrite Lr; reflexivity|auto]. }
  clear - H1 G. induction H1 as [|w r ws rs (b & Er) _ IH]; [constructor|]. constructor; [|apply IH; intros; apply G; now right].
  destruct (G w (or_introl eq_refl)) as (r' & b' & Er' & Br). rewrite Er in Er'. injection Er' as -> _. exact Br.
Qed.

Lemma rows_count : forall F C (O : fops F) (rc : recognizer F C) L R samples rows, rows_of O rc L R samples rows ->
  lenZ rows = Z.of_nat (num_windows 400 160 (List.length samples)).
Proof.
  intros F C O rc L R samples rows (feats & H1 & H2). unfold lenZ. f_equal.
  assert (Lf : List.length feats = num_windows 400 160 (List.length samples)).
  { rewrite <- (Forall2_len _ _ _ _ _ H1). unfold windows. now rewrite map_length, seq_length. }
  rewrite <- Lf, <- (Forall2_len _ _ _ _ _ H2). rewrite Windows.windows_1_length. unfold padded.
  destruct feats as [|x fs]; [reflexivity|]. rewrite !app_length, !repeat_length. cbn [List.length]. lia.
Qed.

Lemma layers_snoc : forall (of_word : Z -> float32) ls, map (layer_numbers of_word) (ls ++ [LogSoftmax]) = map (layer_numbers of_word) ls ++ [LogSoftmax].
Proof. intros of_word ls. now rewrite map_app. Qed.

Lemma mild_printed : forall lib M junk junk_int tenth of_word unknown files hclg why lm_fuel header_error fn m blocks k ls,
  let O := ieee lib in let X := ieee_wide in
  libm M -> close_logf M -> sane_log lib -> sane_exp lib ->
  stored O of_word files hclg fn m -> network_fits m blocks -> one_word (m_graph m) ->
  m_lm m = None -> sound_graph (m_graph m) (m_tid2pdf m) (lenZ (m_prior m)) ->
  (forall s a, arc_from (m_graph m) s a -> moderate (weight a) /\ (output_label a <> 0 -> exists name, In (name, output_label a) (m_words m))) ->
  in32 (1, 0) tenth -> short_silence (m_graph m) k ->
  m_layers m = ls ++ [LogSoftmax] -> Forall (fun w => in32 (1, 98) (f_log O (of_word w))) (m_prior m) ->
  (forall w y, List.length w = S (left_context blocks + right_context blocks) -> Forall (fun r => lenZ r = 40 /\ Forall (in32 (1, 7)) r) w ->
     nnet_propagate O (map (layer_numbers of_word) ls) w = Ok [y] -> mild y) ->
  forall input bits chunk size data xs rest,
  ends_in input (lit ".wav") -> files input = Some (wav bits chunk size data) -> wav_sizes bits chunk size -> byte_list data ->
  AudioSpec.decodes (Z.to_nat (bits / 8)) data xs rest ->
  (Z.of_nat (num_windows 400 160 (List.length xs)) + 1) * (k + 1) <= 4194304 ->
  exists rc rows,
    made_of O of_word (ieee_trig M) (ieee_init M) junk junk_int lm_fuel m rc /\
    rows_of O rc (left_context blocks) (right_context blocks) (map (f_int O) xs) rows /\
  exists fuel0 out,
    (out = [] \/ exists w s c total, In (out, w) (m_words m) /\
       path O X (m_graph m) (m_tid2pdf m) tenth None (rev rows) s c [w] /\
       ending X (m_graph m) None true s c total /\ x_is_inf X total = false) /\
    forall fuel, (fuel0 <= fuel)%nat ->
      run_main O X tenth fuel files
        (stt_load O (ieee_trig M) (ieee_init M) junk junk_int of_word unknown files hclg why lm_fuel) header_error [fn; input]
      = Ok (out ++ [10], 0).
Proof.
  intros lib M junk junk_int tenth of_word unknown files hclg why lm_fuel header_error fn m blocks k ls O X HM HC Sl Se St Nf H1 Nlm Sg Ha Ht Hk Hls Hp Hy
    input bits chunk size data xs rest A1 A2 A3 A4 A5 A6.
  destruct (plain_printed lib M junk junk_int tenth of_word unknown files hclg why lm_fuel header_error fn m blocks k HM HC St Nf H1 Nlm Sg Ha Ht Hk
    input bits chunk size data xs rest A1 A2 A3 A4 A5) as (rc & rows & Hrc & Hrows & K).
  pose proof (network_am_fits O of_word m blocks _ _ _ _ _ rc Nf Hrc) as Af.
  pose proof Hrc as (_ & _ & _ & _ & B4 & B5 & _ & _ & _ & B9 & _).
  assert (Hb : (Z.to_nat (bits / 8) <= 4)%nat).
  { destruct A3 as (A3 & _). destruct A3 as [-> |[-> | ->]]; cbn; lia. }
  pose proof (rows_width _ _ O rc _ _ _ _ _ _ (audio_features lib M junk junk_int _ rc _ xs HM B9 Hb (proj1 (proj2 A5))) Af Hrows) as Wd.
  exists rc, rows. split; [exact Hrc|]. split; [exact Hrows|]. apply K.
  - apply (mild_rows lib _ rc (left_context blocks) (right_context blocks) (map (layer_numbers of_word) ls) (map (f_int O) xs) rows Se); auto.
    + rewrite B5, Hls, layers_snoc. reflexivity.
    + rewrite B4. apply Forall_map. exact Hp.
    + intros feats w y F2 J E. apply (Hy w y); [exact (SttTotal.windows_one _ _ _ _ J)| |exact E].
      apply (SttTotal.windows_uniform _ (S (left_context blocks + right_context blocks)) 1 _ (padded (left_context blocks) (right_context blocks) feats)); [|exact J].
      apply SttTotal.padded_forall. exact (feats_bounded lib M junk junk_int _ _ xs feats HM Sl B9 Hb (proj1 (proj2 A5)) F2).
  - rewrite (rows_count _ _ _ _ _ _ _ _ Hrows), map_length. exact A6.
Qed.
