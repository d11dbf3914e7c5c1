(** Sessions that never fail, from audio to text. *)
From Coq Require Import ZArith List Bool Lia.
From Verif.Base Require Import Prelude ZMap Lemmas.
From Verif.Spec Require Import AudioSpec AmSpec FbankSpec PcmSpec TextSpec GCSpec DecoderSpec SttSpec TotalSpec SessionSpec.
From Verif.Model Require Import Util File Arith Vector Pcm Fbank Am SymbolTable HashTable Pool OLabel Fst Decoder Stt.
From Verif.Proof Require Import Loop DecoderBase Decoder DecoderRun DecoderClosed DecoderCutoff DecoderTotal FbankStream Stt SttCut.
From Verif.Proof Require FbankTotal Am TextCases Pcm PcmCases.
Import ListNotations.
Open Scope Z_scope.

Section Session.
Context {F D C : Type} (O : fops F) (X : xops F D) (tenth : F) (rc : recognizer F C).

Notation cfg := (utt_config O tenth rc).
Notation dec := (decoder F C).

(** * Rows *)
Lemma decode_windows : forall fuel ws feats a outs a' s,
  Forall2 (fun w r => frame_features O (rc_fbank rc) w = Ok r) ws feats ->
  am_run O (rc_am rc) a feats = Ok (outs, a') ->
  for_each ws (window_step O X tenth fuel rc) (a, s) =
    (s <- for_each (concat outs) (decode_row O X tenth fuel rc) s ;; Ok (a', s)).
Proof.
  intros fuel ws feats a outs a' s H. revert a outs a' s. induction H as [|w r ws feats Hw _ IH]; intros a outs a' s E.
  - cbn in E. injection E as <- <-. reflexivity.
  - cbn [am_run] in E. destruct (bind_ok _ _ _ _ _ E) as [[m a1] [E1 E2]]. clear E.
    destruct (bind_ok _ _ _ _ _ E2) as [[l a2] [E3 E4]]. clear E2. injection E4 as <- <-.
    cbn [for_each]. unfold window_step at 1. rewrite Hw. cbn [bind]. unfold decode_frame. rewrite E1. cbn [bind].
    cbn [concat]. rewrite for_each_app. destruct (for_each m (decode_row O X tenth fuel rc) s) as [s1|f]; cbn [bind]; [|reflexivity].
    apply IH. exact E3.
Qed.

Lemma decode_windows_ok : forall fuel ws feats a outs a' s s',
  Forall2 (fun w r => frame_features O (rc_fbank rc) w = Ok r) ws feats ->
  am_run O (rc_am rc) a feats = Ok (outs, a') ->
  for_each (concat outs) (decode_row O X tenth fuel rc) s = Ok s' ->
  for_each ws (window_step O X tenth fuel rc) (a, s) = Ok (a', s').
Proof.
  intros fuel ws feats a outs a' s s' H1 H2 H3. rewrite (decode_windows fuel ws feats a outs a' s H1 H2), H3. reflexivity.
Qed.

Lemma windows_uniform : forall (A : Type) len shift (P : A -> Prop) (xs : list A), Forall P xs ->
  forall w, In w (windows len shift xs) -> Forall P w.
Proof.
  intros A len shift P xs H w J. unfold windows in J. apply in_map_iff in J. destruct J as (i & <- & _).
  unfold window. rewrite Forall_forall in *. intros x Jx. apply H.
  assert (Jf : forall n (l : list A), In x (firstn n l) -> In x l).
  { intros n l J. rewrite <- (firstn_skipn n l). apply in_or_app. now left. }
  assert (Js : forall n (l : list A), In x (skipn n l) -> In x l).
  { intros n l J. rewrite <- (firstn_skipn n l). apply in_or_app. now right. }
  apply Jf in Jx. now apply Js in Jx.
Qed.

Lemma last_in : forall (A : Type) (xs : list A) x, xs <> [] -> In (last xs x) xs.
Proof.
  intros A xs x H. destruct (exists_last H) as (ys & y & ->). rewrite last_last. apply in_or_app. right. now left.
Qed.

Lemma padded_forall : forall (A : Type) L R (P : A -> Prop) (xs : list A), Forall P xs -> Forall P (padded L R xs).
Proof.
  intros A L R P xs H. unfold padded. destruct xs as [|x xs]; auto. 
  assert (Hx : P x) by (now inversion H).
  apply Forall_app. split; [apply Forall_forall; intros y J; apply repeat_spec in J; now subst|].
  apply Forall_app. split; auto. apply Forall_forall. intros y J. apply repeat_spec in J. subst y.
  rewrite Forall_forall in H. apply H. apply last_in. discriminate.
Qed.

Lemma windows_one : forall (A : Type) len (xs w : list A), In w (windows len 1 xs) -> length w = len.
Proof.
  intros A len xs w J. unfold windows in J. apply in_map_iff in J. destruct J as (i & <- & J). apply in_seq in J.
  unfold num_windows in J. destruct (Nat.ltb_spec (length xs) len); [lia|]. rewrite Nat.div_1_r in J.
  unfold window. rewrite firstn_length, skipn_length. lia.
Qed.

Lemma features_total : forall samples, tables_fit (rc_fbank rc) ->
  (forall x, f_nonneg O (if f_lt O x (f_eps O) then f_eps O else x) = true) ->
  features_fit O rc (lenZ (fb_bins (rc_fbank rc))) samples.
Proof.
  intros samples TF NN w J. pose proof (windows_length _ _ _ J) as Lw.
  destruct (FbankTotal.frame_total O _ w TF NN Lw) as (r & Er & Lr).
  apply single_frame in Er; auto. destruct Er as (b & Er). exists r, b. split; auto. unfold lenZ. lia.
Qed.

Lemma rows_ok : forall L R c d samples, features_fit O rc d samples -> am_fits rc L R c d ->
  exists feats outs a rest a',
    Forall2 (fun w r => frame_features O (rc_fbank rc) w = Ok r) (windows 400 160 samples) feats /\
    am_run O (rc_am rc) inst_init feats = Ok (outs, a) /\ am_end O (rc_am rc) a = Ok (rest, a') /\
    rows_of O rc L R samples (concat outs ++ rest).
Proof.
  intros L R c d samples Fs [A1 A2 A3 A4 A5 A6 A7 A8].
  assert (Hf : exists feats, Forall2 (fun w r => exists b, fbank_process O (rc_fbank rc) [] w = Ok ([r], b)) (windows 400 160 samples) feats /\
     uniform d feats).
  { unfold features_fit in Fs. clear - Fs. induction (windows 400 160 samples) as [|w ws IH]; [exists []; split; constructor|].
    destruct IH as (fs & F1 & F2); [intros w' J; apply Fs; now right|].
    destruct (Fs w (or_introl eq_refl)) as (r & b & Er & Lr).
    exists (r :: fs). split; constructor; eauto. }
  destruct Hf as (feats & Hp & Hu). exists feats.
  assert (Hf : Forall2 (fun w r => frame_features O (rc_fbank rc) w = Ok r) (windows 400 160 samples) feats).
  { assert (W : Forall (fun w => length w = 400%nat) (windows 400 160 samples)).
    { apply Forall_forall. intros w J. eapply windows_length; eauto. }
    clear - Hp W. induction Hp as [|w r ws fs H _ IH]; constructor; inversion W; subst; auto.
    apply single_frame; auto. }
  destruct feats as [|f fs] eqn:Ef.
  - exists [], inst_init, [], inst_init. split; auto. split; [reflexivity|]. split; [reflexivity|].
    exists []. split; auto. constructor.
  - rewrite <- Ef in *.
    destruct (Am.stream_ok O (rc_am rc) L R c d) with (frames := feats) as (outs & a & rest & a' & E1 & E2 & _ & E3); auto.
    + rewrite Ef. discriminate.
    + intros w J. apply A8; [|eapply windows_one; eauto]. refine (windows_uniform _ _ _ _ _ _ w J). now apply padded_forall.
    + exists outs, a, rest, a'. split; auto. split; auto. split; auto. exists feats. auto.
Qed.

(** * Text *)
Lemma store_total : forall (d : dec) old words weight, best_path O X cfg d = Ok (words, weight) ->
  (forall x, In x words -> exists name, sym_get (rc_symbols rc) x = Ok name) ->
  exists hyp, store_hyp O X tenth rc d old = Ok (hyp, if words then snd old else f_div O weight (f_int O (d_frames d))) /\
    spells (rc_symbols rc) (rev words) hyp.
Proof.
  intros d old words weight E Hn.
  assert (H : exists r, store_hyp O X tenth rc d old = Ok r).
  { unfold store_hyp. rewrite E. cbn [bind]. destruct words as [|w words]; [eauto|].
    destruct (for_each_total _ _ (fun _ : bytes => True) (rev (w :: words))
       (fun text word => w <- sym_get (rc_symbols rc) word ;; Ok (text ++ w ++ [32])) [] Logic.I) as (text & Et & _).
    { intros t x J _. apply in_rev in J. destruct (Hn x J) as (name & En). rewrite En. cbn [bind]. eauto. }
    match goal with |- context [for_each ?l ?g ?t] => assert (Et' : for_each l g t = Ok text) by exact Et; rewrite Et' end. cbn [bind].
    destruct (text_loop _ _ _ _ Et) as (names & N1 & N2). cbn [app] in N2.
    assert (NT : ~ In 0 text).
    { rewrite N2. pose proof (names_nul _ _ _ N1) as NN. clear - NN.
      induction names as [|n ns IH]; [tauto|]. inversion NN; subst. cbn [map concat]. intros J.
      apply in_app_or in J. destruct J as [J|J]; [|tauto]. apply in_app_or in J. destruct J as [J|[J|[]]]; [tauto|lia]. }
    destruct (TextCases.bounded_copy (repeat 170 (length text)) text [] (length text) NT) as (h' & S1 & _).
    { rewrite repeat_length. lia. }
    rewrite S1. cbn [bind]. eauto. }
  destruct H as ([hyp ll] & E1). destruct (store_spells O X tenth _ _ _ _ _ E1) as (ws & w & E2 & S1 & E3).
  rewrite E in E2. injection E2 as <- <-. exists hyp. rewrite E1, E3. auto.
Qed.

Lemma spells_unique : forall symbols words a b, spells symbols words a -> spells symbols words b -> a = b.
Proof.
  intros symbols words a b (n1 & H1 & ->) (n2 & H2 & ->). assert (n1 = n2) as ->; auto.
  revert n2 H2. induction H1 as [|w x ws xs H _ IH]; intros n2 H2; inversion H2; subst; auto.
  f_equal; [congruence|auto].
Qed.

Context (wm : option (word_model F)) (good : C -> Prop).
Hypothesis Hlm : lm_implements (c_lm cfg) wm good.
Notation path := (path O X (c_graph cfg) (c_pdf cfg) (c_scale cfg) wm).
Notation both := (both O X cfg wm).

(** The words of paths. *)
Lemma path_named : forall R rows, run_fits O X cfg wm good rows R -> named rc R ->
  forall fs s c ws, path fs s c ws -> (forall later, rev rows = later ++ fs -> True) -> incl fs rows ->
  In s R /\ forall x, In x ws -> exists name, sym_get (rc_symbols rc) x = Ok name.
Proof.
  intros R rows Rf Nm fs s c ws P _. induction P as [|fs s l c ws a l' lw P IH Af Z0 El|fs lp s l c ws a l' lw ac P IH Af NZ Ac El]; intros Inc.
  - split; [exact (rf_start _ _ _ _ _ _ _ Rf)|intros x []].
  - destruct (IH Inc) as [J H]. split.
    + pose proof (ff_eps _ _ _ _ _ _ _ _ (rf_eps _ _ _ _ _ _ _ Rf) (s, l) a J Af Z0) as G. unfold arrival in G. cbn [snd] in G. rewrite El in G. exact G.
    + intros x Jx. unfold DecoderSpec.add_word in Jx. destruct (Z.eqb_spec (output_label a) 0) as [|NZ]; auto.
      apply in_app_or in Jx. destruct Jx as [Jx|[<-|[]]]; auto. exact (Nm (s, l) a J Af NZ).
  - destruct IH as [J H]; [intros y Jy; apply Inc; now right|]. split.
    + pose proof (proj1 (ff_emit _ _ _ _ _ _ _ _ (rf_frames _ _ _ _ _ _ _ Rf lp (Inc lp (or_introl eq_refl))) (s, l) a J Af NZ)) as G.
      unfold arrival in G. cbn [snd] in G. rewrite El in G. exact G.
    + intros x Jx. unfold DecoderSpec.add_word in Jx. destruct (Z.eqb_spec (output_label a) 0) as [|NZ']; auto.
      apply in_app_or in Jx. destruct Jx as [Jx|[<-|[]]]; auto. exact (Nm (s, l) a J Af NZ').
Qed.

(** * Rows of log probabilities *)
Lemma rows_decoded : forall R all, run_fits O X cfg wm good all R -> named rc R -> brief O X cfg wm all ->
  forall fuel rows d d' fs later, rev all = later ++ rev rows ++ fs -> ready good (both R fs) d -> d_eos d = false ->
  collections_safe O X cfg fuel d rows ->
  process_all O X cfg collector fuel d rows = Ok (d', true) ->
  forall out, exists out', for_each rows (decode_row O X tenth fuel rc) (d, out) = Ok (d', out').
Proof.
  intros R all Rf Nm Br fuel rows. induction rows as [|logp rows IH]; intros d d' fs later Ea Rd Eo Sf E out.
  - cbn in E. injection E as <-. exists out. reflexivity.
  - cbn [process_all] in E. destruct (bind_ok _ _ _ _ _ E) as [[d1 ok] [E1 E2]]. clear E. destruct ok; [|discriminate].
    destruct Sf as [S1 S2]. cbn [rev] in Ea. rewrite <- app_assoc in Ea. cbn [app] in Ea.
    assert (Jl : In logp all).
    { apply in_rev. rewrite Ea. apply in_or_app. right. apply in_or_app. right. now left. }
    pose proof (rf_frames _ _ _ _ _ _ _ Rf _ Jl) as Ff.
    destruct (process_ready O X cfg wm good Hlm _ _ _ _ _ _ Rd (both_emit O X cfg wm good _ _ _ Ff) (both_eps O X cfg wm good _ _ _ _ Ff) S1 E1)
      as (R1 & F1 & O1).
    assert (Ho : exists out1, decode_row O X tenth fuel rc (d, out) logp = Ok (d1, out1)).
    { unfold decode_row. change (ogc label_block) with collector. rewrite E1. cbn [bind].
      destruct (Z.rem (d_frames d1) 20 =? 0); [|cbn [bind]; eauto].
      destruct (best_path_total O X cfg wm good Hlm R _ _ d1 false (rd_inv _ _ _ R1)) as ([ws w] & Eb & Hb).
      - congruence.
      - intros s J. destruct (ff_to _ _ _ _ _ _ _ _ Ff _ J) as [[H _] _]. exact H.
      - discriminate.
      - intros s c ws P. apply (Br (later ++ rev rows) (logp :: fs) s c ws); auto. rewrite <- app_assoc. exact Ea.
      - destruct (store_total d1 out ws w Eb) as (hyp & Es & _).
        + intros x J. destruct (Hb x J) as (t & ws' & Jt & (P & _) & Jx).
          eapply (path_named R all Rf Nm _ _ _ _ P); auto.
          * intros y Jy. apply in_rev. rewrite Ea. apply in_or_app. right. apply in_or_app. now right.
          * now apply -> in_rev.
        + rewrite Es. cbn [bind]. eauto. }
    destruct Ho as (out1 & Ho). cbn [for_each]. rewrite Ho. cbn [bind].
    eapply (IH d1 d' (logp :: fs) later); eauto.
Qed.

Lemma process_all_app : forall fuel a b d d', process_all O X cfg collector fuel d (a ++ b) = Ok (d', true) ->
  exists d1, process_all O X cfg collector fuel d a = Ok (d1, true) /\ process_all O X cfg collector fuel d1 b = Ok (d', true) /\
    (collections_safe O X cfg fuel d (a ++ b) -> collections_safe O X cfg fuel d a /\ collections_safe O X cfg fuel d1 b).
Proof.
  intros fuel a. induction a as [|logp a IH]; intros b d d' E.
  - exists d. split; [reflexivity|]. split; auto. intros H. split; [exact Logic.I|exact H].
  - cbn [app process_all] in E. destruct (bind_ok _ _ _ _ _ E) as [[d1 ok] [E1 E2]]. clear E. destruct ok; [|discriminate].
    destruct (IH b d1 d' E2) as (d2 & E3 & E4 & H). exists d2. cbn [process_all]. rewrite E1. cbn [bind]. split; auto. split; auto.
    intros [S1 S2]. destruct (H (S2 d1 E1)) as [H1 H2]. split; auto. split; auto. intros d3 E5.
    rewrite E1 in E5. injection E5 as <-. exact H1.
Qed.

Lemma process_rows : forall fuel rows (d d' : dec), process_all O X cfg collector fuel d rows = Ok (d', true) ->
  for_each rows (fun d logp => '(d, _) <- process O X cfg (ogc label_block) fuel d logp ;; Ok d) d = Ok d'.
Proof.
  intros fuel rows. induction rows as [|logp rows IH]; intros d d' E.
  - cbn in *. congruence.
  - cbn [process_all] in E. destruct (bind_ok _ _ _ _ _ E) as [[d1 ok] [E1 E2]]. destruct ok; [|discriminate].
    cbn [for_each]. change (ogc label_block) with collector. rewrite E1. cbn [bind]. change collector with (ogc label_block). auto.
Qed.

(** * Sessions *)
Lemma session_ok : forall L R c d f xs stream rest,
  features_fit O rc d (map (f_int O) xs) -> am_fits rc L R c d -> supported f ->
  AudioSpec.decodes (Z.to_nat (w_bits f / 8)) stream xs rest ->
  exists rows, rows_of O rc L R (map (f_int O) xs) rows /\
  forall Rs, divides_well O -> well_founded (fun x y => f_lt O x y = true) -> rounding O X (c_beam cfg) ->
  good (rc_cache rc) -> run_fits O X cfg wm good rows Rs ->
  (forall fuel, run_safe O X cfg fuel (rc_cache rc) rows) -> lively cfg Rs -> finite_costs O X cfg wm rows ->
  brief O X cfg wm rows -> ends cfg Rs -> named rc Rs ->
  exists fuel0 dec words weight text,
    best_path O X cfg (end_of_stream dec) = Ok (words, weight) /\ spells (rc_symbols rc) (rev words) text /\
    forall fuel err, (fuel0 <= fuel)%nat ->
      DecoderSpec.decodes O X cfg collector fuel (rc_cache rc) rows dec /\
      exists u, utt_init O X tenth fuel err rc f = Ok (Some u, err) /\
      forall ps, Forall piece ps -> concat ps = stream ->
      exists ns ll, session O X tenth fuel err (Some u) ps = Ok (ns, text, ll) /\ total ns = lenZ xs /\
        Forall (fun n => 0 <= n) ns /\
        (words <> [] -> ll = f_div O weight (f_int O (lenZ rows))).
Proof.
  intros L R c dim f xs stream rest Fs Af Sf Dx.
  destruct (rows_ok L R c dim (map (f_int O) xs) Fs Af) as (feats & outs & a & rest' & a' & Hf & Er & Ee & Hr).
  set (rows := concat outs ++ rest') in *. exists rows. split; auto.
  intros Rs Hd W Ro Gc Rf Hs Lv Fc Br En Nm.
  destruct (initialize_total O X cfg wm good Hlm W (r_flt _ _ _ Ro) rows Rs (rc_cache rc) Gc Rf) as (f0 & d0 & d1 & E0 & E1 & R1 & Sl1 & N1 & F1 & S1).
  destruct (frames_succeed O X cfg wm good Hlm Hd W Ro Rs rows Lv Fc rows d1 [] (eq_sym (app_nil_r _)) (rf_frames _ _ _ _ _ _ _ Rf) R1 Sl1 N1)
    as (f1 & d & E2 & S2 & R2 & _ & N2 & F2).
  { exists f0. intros fuel Hfu. apply (Hs fuel d0 d1 E0). auto. }
  assert (Hg : forall s, In s Rs -> 0 <= Datatypes.fst s < lenZ (g_states (c_graph cfg))).
  { intros s J. destruct (ff_to _ _ _ _ _ _ _ _ (rf_eps _ _ _ _ _ _ _ Rf) _ J) as [[H _] _]. exact H. }
  assert (Hb' : forall s c ws, path (rev rows) s c ws -> lenZ ws < 100000) by (intros s c' ws; apply (Br []); reflexivity).
  destruct R2 as [I Ep].
  destruct (best_path_total O X cfg wm good Hlm Rs (fun _ _ _ => False) (rev rows) (end_of_stream d) true) as ([words weight] & Eb & Hb); auto.
  { destruct I; constructor; auto. }
  assert (Hnames : forall x, In x words -> exists name, sym_get (rc_symbols rc) x = Ok name).
  { intros x J. destruct (Hb x J) as (t & ws' & Jt & (P & _) & Jx).
    eapply (path_named Rs rows Rf Nm _ _ _ _ P); auto.
    - intros y Jy. now apply in_rev.
    - now apply -> in_rev. }
  destruct (store_total (end_of_stream d) ([0], f_zero O) words weight Eb Hnames) as (text & _ & St).
  exists (Nat.max f0 f1), d, words, weight, text. split; auto. split; auto.
  intros fuel err Hfu.
  assert (Ei : initialize O X cfg fuel d0 = Ok d1) by (apply E1; lia).
  assert (Ea : process_all O X cfg collector fuel d1 rows = Ok (d, true)) by (apply E2; lia).
  split; [exists d0, d1; auto|].
  eexists. split.
  { unfold utt_init. rewrite E0. cbn [bind]. rewrite Ei. cbn [bind].
    destruct (PcmCases.set_format_cases reader_init f) as [[Q1 Q2]|[Q1 Q2]]; [rewrite Q2|contradiction]. reflexivity. }
  intros ps Hps Ec.
  destruct f as [ch rate bits]. destruct Sf as (S3 & S4 & S5). cbn [w_channels w_rate w_bits] in *. subst ch rate. unfold valid_width in S5.
  destruct (session_whole O X tenth fuel any (fun _ => Logic.I) bits rc ps err d1 S5 Hps (or_introl (fun _ _ => Logic.I))) as (ys & r2 & D2 & A2).
  assert (Ew : Z.to_nat (bits / 8) = Verif.Proof.Pcm.width bits) by (destruct S5 as [-> | [-> | ->]]; reflexivity). rewrite Ew in Dx.
  assert (P : (0 < Verif.Proof.Pcm.width bits)%nat) by (destruct S5 as [-> | [-> | ->]]; cbv; lia).
  assert (ys = xs) as ->.
  { destruct Dx as (Q1 & F1' & L1), D2 as (Q2 & F2' & L2).
    apply (decodes_unique (Verif.Proof.Pcm.width bits) P ys xs r2 rest); auto. congruence. }
  
  destruct (process_all_app fuel (concat outs) rest' d1 d Ea) as (dm & Em & Er' & Hcs).
  destruct (Hcs (Hs fuel d0 d1 E0 Ei)) as [C1 C2].
  destruct (rows_decoded Rs rows Rf Nm Br fuel (concat outs) d1 dm [] (rev rest')) with (out := ([0], f_zero O)) as ([h ll] & Eo); auto.
  { unfold rows. rewrite rev_app_distr, app_nil_r. reflexivity. }
  destruct (store_total (end_of_stream d) (h, ll) words weight Eb Hnames) as (text' & Es & St').
  assert (text' = text) as -> by (eapply spells_unique; eauto).
  assert (Ewh : whole O X tenth fuel rc d1 xs = Ok (text, if words then ll else f_div O weight (f_int O (d_frames (end_of_stream d))))).
  { unfold whole. pose proof (decode_windows_ok fuel _ _ _ _ _ (d1, ([0], f_zero O)) _ Hf Er Eo) as Ed.
    match goal with |- context [for_each ?l ?g ?t] => assert (Ed' : for_each l g t = Ok (a, (dm, (h, ll)))) by exact Ed; rewrite Ed' end.
    cbn [bind].
    rewrite Ee. cbn [bind]. rewrite (process_rows _ _ _ _ Er'). cbn [bind]. exact Es. }
  rewrite Ewh in A2. unfold alike in A2. rewrite S1 in *. clear Ewh.
  match type of A2 with match ?m with _ => _ end => destruct m as [[[ns txt] l]|] eqn:Esn; [|contradiction] end.
  destruct A2 as (T1 & T2 & T3). cbn [Datatypes.fst snd] in *. injection T3 as -> ->.
  exists ns, (if words then ll else f_div O weight (f_int O (d_frames (end_of_stream d)))).
  split; [exact Esn|]. split; auto. split; auto. intros Hw. destruct words; [congruence|]. cbn [end_of_stream d_frames]. rewrite F2, F1. reflexivity.
Qed.
End Session.
