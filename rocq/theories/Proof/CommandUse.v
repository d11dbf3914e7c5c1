(** Commands: the program, and cases. *)
From Coq Require Import ZArith Reals String List Bool Lia.
From Verif.Base Require Import Prelude Lemmas.
From Verif.Spec Require Import AudioSpec AmSpec PcmSpec TextSpec NnetSpec FbankSpec DecoderSpec SttSpec TotalSpec SessionSpec LibmSpec ValueSpec LoadingSpec ProgramSpec EndSpec CommandSpec.
From Verif.Model Require Import Util File Arith Pcm Fbank Srfft FbankInit Pool Fst Decoder SymbolTable Stt Main Loading Ieee IeeeFbank.
From Verif.Proof Require Import IeeeLaws IeeeCases MelClose TotalCases FiniteCases EndToEnd EndCases ExtractorUse DecoderTotal Command.
From Verif.Proof Require Import QOps.
From Verif.Proof Require DecoderMain DecoderCases LoadingCases.
Import ListNotations.
Open Scope Z_scope.

Section Decoder.
Context {F D C : Type} (O : fops F) (X : xops F D) (cfg : config F C).
Context (wm : option (word_model F)) (good : C -> Prop).
Hypothesis Hlm : lm_implements (c_lm cfg) wm good.

Lemma slow_hypothesis : strict (x_lt X) -> forall fuel cache frames d, good cache -> slow_words O X cfg wm frames ->
  decodes O X cfg collector fuel cache frames d ->
  forall (eos : bool) ws weight, best_path O X cfg (if eos then end_of_stream d else d) = Ok (ws, weight) ->
  ws = [] \/ exists s c, path O X (c_graph cfg) (c_pdf cfg) (c_scale cfg) wm (rev frames) s c (rev ws).
Proof.
  intros Hs fuel cache frames d Gc Sl Dc eos ws weight E.
  destruct (DecoderMain.hypothesis_path O X cfg wm good Hlm Hs fuel cache frames d Gc (slow_safe O X cfg wm good Hlm fuel cache frames Gc Sl) Dc eos ws weight E)
    as [(-> & _)|(s & c & total & w & _ & P & _)]; [now left|]. right. eauto.
Qed.

Lemma one_hypothesis : strict (x_lt X) -> one_word (c_graph cfg) -> forall fuel cache frames d, good cache ->
  decodes O X cfg collector fuel cache frames d ->
  forall (eos : bool) ws weight, best_path O X cfg (if eos then end_of_stream d else d) = Ok (ws, weight) ->
  ws = [] \/ exists w s c, ws = [w] /\ path O X (c_graph cfg) (c_pdf cfg) (c_scale cfg) wm (rev frames) s c [w].
Proof.
  intros Hs H1 fuel cache frames d Gc Dc eos ws weight E.
  destruct (slow_hypothesis Hs fuel cache frames d Gc (one_slow O X cfg wm frames H1) Dc eos ws weight E) as [->|(s & c & P)]; [now left|].
  destruct ws as [|w [|w2 ws]]; [now left|right; exists w, s, c; auto|].
  pose proof (H1 _ _ (path_walk O X cfg wm _ _ _ _ P)) as L. unfold lenZ in L. rewrite rev_length in L. cbn [length] in L. lia.
Qed.
End Decoder.

(** * Sessions and the program *)
Lemma one_session : forall lib M junk junk_int C tenth (rc : recognizer float32 C) wm good,
  let O := ieee lib in let X := ieee_wide in
  libm M -> fbank_new O (ieee_trig M) (ieee_init M) junk junk_int = Ok (rc_fbank rc) -> lm_implements (rc_lm rc) wm good ->
  one_word (rc_graph rc) ->
  forall L R c f xs stream rest,
  am_fits rc L R c 40 -> supported f ->
  AudioSpec.decodes (Z.to_nat (w_bits f / 8)) stream xs rest ->
  let cfg := utt_config O tenth rc in
  exists rows, rows_of O rc L R (map (f_int O) xs) rows /\
  forall states, good (rc_cache rc) -> run_fits O X cfg wm good rows states ->
  lively cfg states -> finite_costs O X cfg wm rows -> ends cfg states -> named rc states ->
  exists fuel0 words text, lenZ words <= 1 /\ spells (rc_symbols rc) words text /\
    (words = [] \/ exists s c, path O X (rc_graph rc) (rc_pdf rc) tenth wm (rev rows) s c words) /\
    forall fuel err, (fuel0 <= fuel)%nat ->
      exists u, utt_init O X tenth fuel err rc f = Ok (Some u, err) /\
      forall ps, Forall piece ps -> concat ps = stream ->
      exists ns ll, session O X tenth fuel err (Some u) ps = Ok (ns, text, ll) /\ total ns = lenZ xs.
Proof.
  intros lib M junk junk_int C tenth rc wm good O X HM E Hl H1 L R c f xs stream rest Af Sf Dx cfg.
  destruct (session_audio lib M junk junk_int C tenth rc wm good HM E Hl L R c f xs stream rest Af Sf Dx) as (rows & Hrows & H).
  exists rows. split; [exact Hrows|]. intros states Gc Rf Li Fc En Nm.
  assert (Hc : lm_implements (c_lm cfg) wm good) by exact Hl.
  assert (H1' : one_word (c_graph cfg)) by exact H1.
  destruct (H states Gc Rf (fun fuel => one_safe O X cfg wm good Hc fuel (rc_cache rc) rows Gc H1') Li Fc (one_brief O X cfg wm rows H1') En Nm)
    as (fuel0 & dec & words & weight & text & Eb & Sp & Hf).
  destruct (Hf fuel0 [] (le_n _)) as (Dec0 & _).
  pose proof (one_hypothesis O X cfg wm good Hc (proj2 (ieee_strict lib)) H1' fuel0 (rc_cache rc) rows dec Gc Dec0 true words weight Eb) as Hp.
  exists fuel0, (rev words), text. split; [|split; [exact Sp|split]].
  - destruct Hp as [->|(w & s & c0 & -> & _)]; cbn; lia.
  - destruct Hp as [->|(w & s & c0 & -> & P)]; [now left|]. right. exists s, c0. exact P.
  - intros fuel err Hfu. destruct (Hf fuel err Hfu) as (_ & u & Eu & Hs). exists u. split; [exact Eu|].
    intros ps Pp Ec. destruct (Hs ps Pp Ec) as (ns & ll & Es & Et & _). eauto.
Qed.

Lemma one_printed : forall lib M junk junk_int tenth of_word unknown files hclg why lm_fuel header_error fn m blocks,
  let O := ieee lib in let X := ieee_wide in
  libm M -> close_logf M -> stored O of_word files hclg fn m -> network_fits m blocks -> one_word (m_graph m) ->
  forall wm good, model_words O of_word lm_fuel m wm good ->
  forall input bits chunk size data xs rest,
  ends_in input (lit ".wav") -> files input = Some (wav bits chunk size data) -> wav_sizes bits chunk size -> byte_list data ->
  AudioSpec.decodes (Z.to_nat (bits / 8)) data xs rest ->
  exists rc rows,
    made_of O of_word (ieee_trig M) (ieee_init M) junk junk_int lm_fuel m rc /\
    rows_of O rc (left_context blocks) (right_context blocks) (map (f_int O) xs) rows /\
  forall states,
  let cfg := utt_config O tenth rc in
  run_fits O X cfg wm good rows states -> lively cfg states -> finite_costs O X cfg wm rows -> ends cfg states -> EndSpec.listed m states ->
  exists fuel0 out,
    (out = [] \/ exists w s c total, In (out, w) (m_words m) /\
       path O X (m_graph m) (m_tid2pdf m) tenth wm (rev rows) s c [w] /\
       ending X (m_graph m) wm true s c total /\ x_is_inf X total = false) /\
    forall fuel, (fuel0 <= fuel)%nat ->
      run_main O X tenth fuel files
        (stt_load O (ieee_trig M) (ieee_init M) junk junk_int of_word unknown files hclg why lm_fuel) header_error [fn; input]
      = Ok (out ++ [10], 0).
Proof.
  intros lib M junk junk_int tenth of_word unknown files hclg why lm_fuel header_error fn m blocks O X HM HC St Nf H1 wm good Hw
    input bits chunk size data xs rest A1 A2 A3 A4 A5.
  destruct (built_text lib M junk junk_int tenth of_word unknown files hclg why lm_fuel header_error fn m blocks HM HC St Nf wm good Hw
    input bits chunk size data xs rest A1 A2 A3 A4 A5) as (rc & rows & Hrc & Hrows & K).
  exists rc, rows. split; [exact Hrc|]. split; [exact Hrows|]. intros states cfg P1 P3 P4 P6 P7.
  destruct (model_lm _ O of_word lm_fuel m _ _ _ _ rc wm good Hrc Hw) as (Hlm & Gc).
  assert (H1' : one_word (c_graph cfg)).
  { destruct Hrc as (E & _). change (c_graph cfg) with (rc_graph rc). now rewrite E. }
  assert (Hlm' : lm_implements (c_lm cfg) wm good) by exact Hlm.
  destruct (K states P1 (fun fuel => one_safe O X cfg wm good Hlm' fuel (rc_cache rc) rows Gc H1') P3 P4 (one_brief O X cfg wm rows H1') P6 P7)
    as (fuel0 & words & names & Q1 & Q2 & Q3).
  exists fuel0. destruct Q2 as [-> |(s & c & total & Q2 & Q4 & Q5)].
  - inversion Q1; subst. exists []. split; [now left|]. exact Q3.
  - assert (L : lenZ words <= 1).
    { apply (H1' (Datatypes.fst s)). refine (path_walk O X cfg wm (rev rows) s c words _). destruct Hrc as (E & _ & _ & _ & _ & _ & E2 & _).
      unfold cfg, utt_config, new_config. cbn [c_graph c_pdf c_scale]. rewrite E, E2. exact Q2. }
    destruct words as [|w [|w2 ws]]; [| |unfold lenZ in L; cbn [length] in L; lia].
    + inversion Q1; subst. exists []. split; [now left|]. exact Q3.
    + inversion Q1 as [|? n1 ? ns1 J1 Hn1]; subst. inversion Hn1; subst. exists n1. split; [|exact Q3].
      right. exists w, s, c, total. auto.
Qed.

(** * A choice of two words, for 45 frames *)
Definition graph12 : graph trop := mk_graph 0
  [ (Inf, [mk_arc 0 1 0 (Num 1); mk_arc 1 1 5 (Num 2); mk_arc 2 2 7 (Num 1)]);
    (Num 3, [mk_arc 1 1 0 (Num 1)]);
    (Num 1, [mk_arc 2 2 0 (Num 0)]) ].
Definition config12 : config trop unit := new_config tops graph12 [0; 0; 1] (Num 1) None.

Lemma one12 : one_word graph12.
Proof.
  intros s ws W.
  assert (H : (s = 0 /\ ws = []) \/ ((s = 1 \/ s = 2) /\ lenZ ws = 1)).
  { induction W as [|s ws a W IH Af]; [now left|].
    destruct Af as (H0 & fw & l & E & J). destruct (Z.to_nat s) as [|[|[|n]]] eqn:Es; cbn in E.
    - injection E as <- <-. destruct IH as [(_ & ->)|([-> | ->] & _)]; [|discriminate Es|discriminate Es].
      destruct J as [<-|[<-|[<-|[]]]]; cbn; auto.
    - injection E as <- <-. destruct IH as [(-> & _)|(_ & L)]; [discriminate Es|]. destruct J as [<-|[]]. right. split; auto.
    - injection E as <- <-. destruct IH as [(-> & _)|(_ & L)]; [discriminate Es|]. destruct J as [<-|[]]. right. split; auto.
    - destruct n; discriminate. }
  destruct H as [(_ & ->)|(_ & ->)]; cbn; lia.
Qed.

Lemma case12 : one_word (c_graph config12) /\ lm_implements (c_lm config12) None (fun _ => True) /\ strict (x_lt twide) /\
  exists d, decodes tops twide config12 collector 60 tt (repeat [Num (-1); Num (-3)] 45) d /\
    best_path tops twide config12 (end_of_stream d) = Ok ([7], Num 94).
Proof.
  split; [exact one12|]. split; [exact Logic.I|]. split; [exact (proj1 (proj2 DecoderCases.path_case))|].
  destruct (DecoderCases.report_ok _ _ _ tops twide config12 collector 60 tt (repeat [Num (-1); Num (-3)] 45)
    [((0, 0), Num 90); ((1, 0), Num 91); ((2, 0), Num 92)] ([], Inf) ([7], Num 94)) as (d & H1 & _ & _ & H2).
  - vm_compute. reflexivity.
  - eauto.
Qed.

(** * A model with one word *)
Local Opaque tenth num infinite.
Definition graph13 : graph float32 := mk_graph 0
  [ (infinite, [mk_arc 0 1 0 (tenth 7); mk_arc 1 0 5 (tenth 2)]);
    (tenth 3, [mk_arc 1 1 0 (tenth 1); mk_arc 2 2 0 (tenth (-1))]);
    (tenth 1, [mk_arc 2 2 0 (tenth 0)]) ].
Definition model13 : model (graph float32) :=
  mk_model graph13 layers11 [0; 0] 1 1 2 2 [0; 0; 1] words11 9 8 None.
Definition hclg13 (name : str) : res (option (graph float32)) := Ok (if str_eqb name (lit "d/g") then Some graph13 else None).

Lemma arcs13 : forall s a, arc_from graph13 s a ->
  (s = 0 /\ (a = mk_arc 0 1 0 (tenth 7) \/ a = mk_arc 1 0 5 (tenth 2))) \/
  (s = 1 /\ (a = mk_arc 1 1 0 (tenth 1) \/ a = mk_arc 2 2 0 (tenth (-1)))) \/
  (s = 2 /\ a = mk_arc 2 2 0 (tenth 0)).
Proof.
  intros s a (H0 & fw & l & E & J). destruct (Z.to_nat s) as [|[|[|n]]] eqn:Es; cbn in E.
  - injection E as <- <-. left. split; [lia|]. destruct J as [J|[J|[]]]; auto.
  - injection E as <- <-. right. left. split; [lia|]. destruct J as [J|[J|[]]]; auto.
  - injection E as <- <-. right. right. split; [lia|]. destruct J as [J|[]]; auto.
  - destruct n; discriminate.
Qed.

(** The graph is the one of the other case but for a word. *)
Lemma arc_like : forall s a, arc_from graph13 s a -> exists a', arc_from graph9 s a' /\
  next_state a' = next_state a /\ input_label a' = input_label a /\ weight a' = weight a.
Proof.
  intros s a Af. pose proof Af as (H0 & _). apply arcs13 in Af.
  destruct Af as [(-> & [-> | ->])|[(-> & [-> | ->])|(-> & ->)]];
    [exists (mk_arc 0 1 0 (tenth 7))|exists (mk_arc 1 0 5 (tenth 2))|exists (mk_arc 1 1 0 (tenth 1))|exists (mk_arc 2 2 7 (tenth (-1)))|exists (mk_arc 2 2 0 (tenth 0))];
    (split; [split; [lia|]; eexists; eexists; (split; [reflexivity|cbn; auto])|auto]).
Qed.

Lemma one13 : one_word graph13.
Proof.
  intros s ws W.
  assert (H : (s = 0 /\ ws = []) \/ ((s = 1 \/ s = 2) /\ lenZ ws = 1)).
  { induction W as [|s ws a W IH Af]; [now left|]. apply arcs13 in Af.
    destruct Af as [(-> & [-> | ->])|[(-> & [-> | ->])|(-> & ->)]];
      destruct IH as [(E & ->)|(E & L)]; try lia; cbn; auto. }
  destruct H as [(_ & ->)|(_ & ->)]; cbn; lia.
Qed.

Section Case13.
Variable C : Type.
Notation O := (ieee rough).
Notation X := ieee_wide.
Definition config9 : config float32 C := new_config O graph9 [0; 0; 1] (tenth 1) None.
Definition config13 : config float32 C := new_config O graph13 [0; 0; 1] (tenth 1) None.

Lemma path_like : forall fs s c ws, path O X graph13 [0; 0; 1] (tenth 1) None fs s c ws ->
  exists ws', path O X graph9 [0; 0; 1] (tenth 1) None fs s c ws'.
Proof.
  intros fs s c ws P. induction P as [|fs s l c ws a l' lw P (ws' & IH) Af Z0 El|fs logp s l c ws a l' lw ac P (ws' & IH) Af NZ Ac El].
  - exists []. change (g_start graph13) with (g_start graph9). apply path_start.
  - destruct (arc_like _ _ Af) as (a' & Af' & E1 & E2 & E3). eexists. rewrite <- E1, <- E3. eapply path_eps; eauto. congruence.
  - destruct (arc_like _ _ Af) as (a' & Af' & E1 & E2 & E3). eexists. rewrite <- E1, <- E3. eapply path_emit; eauto; [congruence|].
    unfold acoustic in *. now rewrite E2.
Qed.

Lemma run_fits13 : forall rows, (forall r, In r rows -> r = row9) -> run_fits O X config13 None (fun _ => True) rows states9.
Proof.
  intros rows Hr. pose proof (run_fits11 C rows Hr) as [F1 F2 F3 F4].
  assert (Conv : forall logp from, frame_fits O X config9 None (fun _ => True) logp from states9 -> frame_fits O X config13 None (fun _ => True) logp from states9).
  { intros logp from [H1 H2 H3 H4 H5]. constructor; auto.
    - intros s J. split; [exact (proj1 (H2 s J))|]. intros a m c _ _ E. discriminate E.
    - intros s J. split; [exact (proj1 (H3 s J))|]. intros a m c _ _ E. discriminate E.
    - intros s a J Af NZ. destruct (arc_like _ _ Af) as (a' & Af' & E1 & E2 & E3).
      destruct (H4 s a' J Af' ltac:(congruence)) as (K1 & ac & K2). split.
      + unfold arrival in *. rewrite E1 in K1. exact K1.
      + exists ac. unfold acoustic in *. now rewrite E2 in K2.
    - intros s a J Af NZ. destruct (arc_like _ _ Af) as (a' & Af' & E1 & E2 & E3).
      pose proof (H5 s a' J Af' ltac:(congruence)) as K1. unfold arrival in *. rewrite E1 in K1. exact K1. }
  constructor; auto.
Qed.

Lemma lively13 : lively config13 states9.
Proof.
  intros s J. destruct J as [<-|[<-|[<-|[]]]]; eexists; (split; [split; [cbn; lia|eexists; eexists; split; [reflexivity|now left]]|discriminate]).
Qed.

Lemma finite13 : finite_costs O X config13 None [row9; row9].
Proof.
  intros later fs s c ws E P. destruct (path_like _ _ _ _ P) as (ws' & P').
  destruct (finite9 rough later fs s c ws' E P') as (H1 & H2). split; [exact H1|].
  intros later' logp a ac El Af NZ Ac. destruct (arc_like _ _ Af) as (a' & Af' & E1 & E2 & E3).
  rewrite <- E3. apply (H2 later' logp a' ac El Af'); [congruence|]. unfold acoustic in *. now rewrite E2.
Qed.
End Case13.

Lemma decoded13 : forall C (cache : C) n, exists d,
  DecoderSpec.decodes (ieee rough) ieee_wide (config13 C) collector (50 + n) cache [row9; row9] d /\
  exists w, best_path (ieee rough) ieee_wide (config13 C) (end_of_stream d) = Ok ([5], w).
Proof.
  intros C cache n. destruct (DecoderCases.report_ok _ _ _ (ieee rough) ieee_wide (config13 C) collector (50 + n) cache [row9; row9]
      [((0, 0), num 11911823 (-23)); ((1, 0), num 14092861 (-25)); ((2, 0), num 10737418 (-26))]
      ([5], num 8724152 (-25)) ([5], num 12079595 (-25))) as (d & D1 & _ & _ & D2).
  - vm_compute. reflexivity.
  - eauto.
Qed.

Lemma stored13 : stored (ieee rough) bits32 files11 hclg13 (lit "d/m") model13.
Proof.
  pose proof stored11 as (content & ls & H1 & H2 & (p & G1 & G2) & H4). exists content, ls.
  split; [exact H1|]. split; [exact H2|]. split; [|exact H4].
  exists p. split; [exact G1|]. unfold hclg11, hclg13 in *. destruct (str_eqb p (lit "d/g")); [reflexivity|discriminate G2].
Qed.

Lemma rows_same : forall T I junk junk_int lm_fuel rc samples rows,
  made_of (ieee rough) bits32 T I junk junk_int lm_fuel model13 rc -> features_fit (ieee rough) rc 40 samples ->
  rows_of (ieee rough) rc 1 1 samples rows -> rows = repeat row9 (num_windows 400 160 (List.length samples)).
Proof.
  intros T I junk junk_int lm_fuel rc samples rows (H0 & H1) Hd Hr.
  refine (rows11 T I junk junk_int lm_fuel (mk_recognizer graph9 (rc_am rc) (rc_pdf rc) (rc_lm rc) (rc_cache rc) (rc_fbank rc) (rc_symbols rc)) samples rows _ _ _).
  - split; [reflexivity|]. exact H1.
  - exact Hd.
  - exact Hr.
Qed.

Lemma fits13 : network_fits model13 blocks11.
Proof. destruct fits11. constructor; auto. Qed.

Lemma printed13 : forall M, libm M -> close_logf M -> forall junk junk_int unknown why lm_fuel header_error,
  exists fuel0, forall fuel, (fuel0 <= fuel)%nat ->
  run_main (ieee rough) ieee_wide (tenth 1) fuel files11
    (stt_load (ieee rough) (ieee_trig M) (ieee_init M) junk junk_int bits32 unknown files11 hclg13 why lm_fuel) header_error
    [lit "d/m"; lit "u.wav"] = Ok (lit "so" ++ [10], 0).
Proof.
  intros M HM HC junk junk_int unknown why lm_fuel header_error. destruct (extractor_built rough M HC junk junk_int) as (fb & Efb).
  destruct (files_text rough M junk junk_int (tenth 1) bits32 unknown files11 hclg13 why lm_fuel header_error (lit "d/m") model13 blocks11 fb
    HM Efb stored13 fits13 None (fun _ => True) (without_lm (ieee rough) bits32 lm_fuel model13 eq_refl)
    (lit "u.wav") 16 1156 1120 audio9 samples11 [] ltac:(exists (lit "u"); reflexivity) eq_refl wav11 audio9_bytes decodes11) as (rc & rows & Hm & Hrows & H).
  pose proof Hm as (A0 & _ & _ & _ & _ & _ & A6 & _ & _ & A9 & A10). cbn [m_lm model13 m_graph m_tid2pdf] in A0, A6, A10.
  assert (Er : rows = [row9; row9]).
  { change (left_context blocks11) with 1%nat in Hrows. change (right_context blocks11) with 1%nat in Hrows.
    pose proof (rows_same _ _ _ _ _ _ _ _ Hm (audio_features rough M junk junk_int _ rc 2 samples11 HM A9 (le_S _ _ (le_S _ _ (le_n 2))) (proj1 (proj2 decodes11))) Hrows) as E.
    rewrite map_length in E. unfold samples11 in E. rewrite repeat_length in E. exact E. }
  subst rows.
  assert (Ec : utt_config (ieee rough) (tenth 1) rc = config13 _).
  { unfold utt_config, config13. now rewrite A0, A6, A10. }
  specialize (H states9). cbv zeta in H. rewrite Ec in H.
  destruct H as (fuel0 & words & names & Hn & _ & Hf).
  - apply run_fits13. intros r [<-|[<-|[]]]; reflexivity.
  - intros fuel. exact (one_safe (ieee rough) ieee_wide (config13 _) None (fun _ => True) Logic.I fuel (rc_cache rc) _ Logic.I one13).
  - apply lively13.
  - apply finite13.
  - exact (one_brief (ieee rough) ieee_wide (config13 _) None _ one13).
  - intros s m _ E. discriminate E.
  - intros s a J Af NZ. apply arcs13 in Af. destruct Af as [(E & [-> | ->])|[(E & [-> | ->])|(E & ->)]]; try (exfalso; apply NZ; reflexivity).
    exists (lit "so"). cbn. tauto.
  - exists fuel0. intros fuel Hfuel. destruct (Hf fuel Hfuel) as (_ & Hrun). etransitivity; [exact Hrun|]. clear Hrun.
    destruct (Hf (50 + fuel0)%nat ltac:(lia)) as ((d & w & Hd & Hbp) & _).
    destruct (decoded13 _ (rc_cache rc) fuel0) as (d' & (d0 & d1 & G1 & G2 & G3) & w' & G4).
    destruct Hd as (d0' & d1' & K1 & K2 & K3).
    rewrite G1 in K1. injection K1 as <-. rewrite G2 in K2. injection K2 as <-. rewrite G3 in K3. injection K3 as <-.
    rewrite G4 in Hbp. injection Hbp as Ew _.
    assert (words = [5]) as -> by (rewrite <- (rev_involutive words), <- Ew; reflexivity).
    inversion Hn as [|x n1 xs1 ns1 J1 Hn1]; subst. inversion Hn1; subst.
    rewrite (proj1 (names11 _ _ J1) eq_refl). reflexivity.
Qed.

(** * Two words are too many *)
Lemma two7 : (forall s ws, walk DecoderCases.graph7 s ws -> lenZ ws <= 2) /\ exists d,
  decodes tops twide DecoderCases.config7 collector 50 tt (repeat [Num 0] 21) d /\
  best_path tops twide DecoderCases.config7 (end_of_stream d) = Ok ([7; -1], Num 0) /\
  (forall s c ws, path tops twide DecoderCases.graph7 [0; 0] (Num 1) None (rev (repeat [Num 0] 21)) s c ws -> ~ In (-1) ws).
Proof.
  assert (W : forall s ws, walk DecoderCases.graph7 s ws ->
    (s = 0 /\ ws = []) \/ (s = 1 /\ ws = [5]) \/ (s = 2 /\ ws = [5; 7])).
  { intros s ws W. induction W as [|s ws a W IH Af]; [now left|].
    destruct Af as (H0 & fw & l & E & J). destruct (Z.to_nat s) as [|[|[|n]]] eqn:Es; cbn in E;
      [| | |destruct n; discriminate]; injection E as <- <-; destruct J as [<-|[]];
      destruct IH as [(-> & ->)|[(-> & ->)|(-> & ->)]]; try discriminate Es; cbn; auto. }
  split.
  - intros s ws H. apply W in H. destruct H as [(_ & ->)|[(_ & ->)|(_ & ->)]]; cbn; lia.
  - destruct DecoderCases.run7 as (d & _ & H1 & _ & H2 & _). exists d. split; [exact H1|]. split; [exact H2|].
    intros s c ws P J. pose proof (W _ _ (path_walk tops twide DecoderCases.config7 None _ _ _ _ P)) as H.
    destruct H as [(_ & ->)|[(_ & ->)|(_ & ->)]]; cbn in J; lia.
Qed.
