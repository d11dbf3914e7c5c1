(** From files to text. *)
From Coq Require Import ZArith String List Bool Lia.
From Verif.Base Require Import Prelude Lemmas.
From Verif.Spec Require Import AudioSpec AmSpec FbankSpec PcmSpec TextSpec NnetSpec AmTextSpec FstSpec DecoderSpec SttSpec TotalSpec SessionSpec LibmSpec LoadingSpec ProgramSpec EndSpec.
From Verif.Model Require Import Util File Arith Vector Pcm Fbank Srfft FbankInit Nnet Am SymbolTable Pool Fst Decoder Stt Main Loading Ieee IeeeFbank.
From Verif.Proof Require Import Loop IeeeLaws TotalCases FiniteCases.
From Verif.Proof Require Nnet AmVerify LoadingCases Program Stt SttTotal DecoderLm DecoderMain Ieee.
Import ListNotations.
Open Scope Z_scope.

(** * The network *)
Section Network.
Context {F : Type}.
Variable O : fops F.
Variable f : Z -> F.

Definition block_numbers (b : block Z) : block F :=
  match b with Single l => Single (layer_numbers f l) | Context idx => Context idx end.

Lemma numbers_layers : forall bs, map (layer_numbers f) (flat_map block_layers bs) = flat_map block_layers (map block_numbers bs).
Proof. induction bs as [|[l|idx] bs IH]; cbn; [reflexivity|now rewrite IH|now rewrite IH]. Qed.
Lemma numbers_formed : forall bs, Forall well_formed bs -> Forall well_formed (map block_numbers bs).
Proof. intros bs H. induction H as [|[[]|idx] bs Hb _ IH]; cbn; constructor; auto. Qed.
Lemma numbers_left : forall bs, left_context (map block_numbers bs) = left_context bs.
Proof.
  unfold left_context, list_sum. induction bs as [|[l|idx] bs IH]; cbn [map fold_right]; [reflexivity|exact IH|].
  rewrite IH. reflexivity.
Qed.
Lemma numbers_right : forall bs, right_context (map block_numbers bs) = right_context bs.
Proof.
  unfold right_context, list_sum. induction bs as [|[l|idx] bs IH]; cbn [map fold_right]; [reflexivity|exact IH|].
  rewrite IH. reflexivity.
Qed.

Lemma numbers_run : forall c ls c', runs_on c ls c' -> runs_on c (map (layer_numbers f) ls) c'.
Proof.
  intros c ls c' R. induction R as [c|c W b ls c' LW UW NB R IH|c idx ls c' NI R IH|c s o ls c' LS LO R IH|c l r ls c' L0 R0 R IH|c l ls c' K R IH];
    cbn [map layer_numbers].
  - constructor.
  - apply RunLinear.
    + now rewrite map_length.
    + apply Forall_map. eapply Forall_impl; [|exact UW]. intros r Hr. cbn. rewrite !map_length. exact Hr.
    + destruct b; [congruence|discriminate].
    + now rewrite map_length.
  - now apply RunSplice.
  - apply RunNorm; try (now rewrite map_length). exact IH.
  - now apply RunNarrow.
  - apply RunRow; [|exact IH]. destruct K as [-> |[-> |[-> | ->]]]; cbn; auto.
Qed.

Lemma network_am_fits : forall (m : model (graph F)) blocks T I junk junk_int lm_fuel rc,
  network_fits m blocks -> made_of O f T I junk junk_int lm_fuel m rc ->
  am_fits rc (left_context blocks) (right_context blocks) (Z.to_nat (m_chunk m)) 40.
Proof.
  intros m blocks T I junk junk_int lm_fuel rc [Nl Nb Nr NL NR Nc Ns] (_ & A1 & A2 & A3 & A4 & A5 & _).
  assert (Run := numbers_run _ _ _ Nr).
  constructor.
  - now rewrite A1.
  - now rewrite A2.
  - rewrite A3. lia.
  - lia.
  - lia.
  - lia.
  - rewrite A5, Nl, numbers_layers, <- (numbers_left blocks), <- (numbers_right blocks).
    apply Nnet.stack_local; [now apply numbers_formed|lia].
  - intros w U Lw. rewrite A5, A4, map_length.
    assert (NW : w <> []) by (intros ->; discriminate Lw).
    destruct (AmVerify.runs_ok O _ _ _ Run ltac:(lia) w NW U) as (y & E & NY & UY).
    assert (Loc : local (nnet_propagate O (map (layer_numbers f) (m_layers m))) (left_context blocks) (right_context blocks) 40).
    { rewrite Nl, numbers_layers, <- (numbers_left blocks), <- (numbers_right blocks).
      apply Nnet.stack_local; [now apply numbers_formed|lia]. }
    rewrite E. pose proof (proj1 (Loc w y U ltac:(lia)) E) as H. apply Forall2_len in H.
    rewrite Windows.windows_1_length, Lw in H.
    destruct y as [|r [|r2 y]]; cbn [List.length] in H; try lia.
    exists r. split; [reflexivity|]. inversion UY; subst. unfold lenZ in *. lia.
Qed.
End Network.

(** * The language model *)
Lemma model_lm : forall F (O : fops F) of_word lm_fuel (m : model (graph F)) T I junk junk_int rc wm good,
  made_of O of_word T I junk junk_int lm_fuel m rc -> model_words O of_word lm_fuel m wm good ->
  lm_implements (rc_lm rc) wm good /\ good (rc_cache rc).
Proof.
  intros F O of_word lm_fuel m T I junk junk_int rc wm good (_ & _ & _ & _ & _ & _ & _ & _ & _ & _ & Hm) Mw.
  destruct Mw as [E|costs t table E Et lm]; rewrite E in Hm.
  - rewrite Hm. split; exact Logic.I.
  - destruct Hm as (table' & Et' & El & Ec). rewrite Et in Et'. injection Et' as <-. fold lm in El.
    rewrite El. split; [apply DecoderLm.cached_lm_implements|eapply DecoderLm.new_cache_true; [|eassumption]; lia].
Qed.

(** * The words of paths *)
Lemma path_words : forall F D C (O : fops F) (X : xops F D) (cfg : config F C) wm good R rows (P : Z -> Prop),
  run_fits O X cfg wm good rows R ->
  (forall s a, In s R -> arc_from (c_graph cfg) (Datatypes.fst s) a -> output_label a <> 0 -> P (output_label a)) ->
  forall fs s c ws, path O X (c_graph cfg) (c_pdf cfg) (c_scale cfg) wm fs s c ws -> incl fs rows ->
  In s R /\ forall x, In x ws -> P x.
Proof.
  intros F D C O X cfg wm good R rows P Rf Nm fs s c ws Hp.
  assert (W : forall s a ws x, In s R -> arc_from (c_graph cfg) (Datatypes.fst s) a ->
    (forall x, In x ws -> P x) -> In x (DecoderSpec.add_word (output_label a) ws) -> P x).
  { intros s0 a ws0 x J Af H Jx. unfold DecoderSpec.add_word in Jx. destruct (Z.eqb_spec (output_label a) 0) as [|NZ]; auto.
    apply in_app_or in Jx. destruct Jx as [Jx|[<-|[]]]; auto. exact (Nm s0 a J Af NZ). }
  induction Hp as [|fs s l c ws a l' lw Hp IH Af Z0 El|fs lp s l c ws a l' lw ac Hp IH Af NZ Ac El]; intros Inc.
  - split; [exact (rf_start _ _ _ _ _ _ _ Rf)|intros x []].
  - destruct (IH Inc) as [J H]. split.
    + pose proof (ff_eps _ _ _ _ _ _ _ _ (rf_eps _ _ _ _ _ _ _ Rf) (s, l) a J Af Z0) as G. unfold arrival in G. cbn [snd] in G. rewrite El in G. exact G.
    + intros x. now apply (W (s, l) a ws x J).
  - destruct IH as [J H]; [intros y Jy; apply Inc; now right|]. split.
    + pose proof (proj1 (ff_emit _ _ _ _ _ _ _ _ (rf_frames _ _ _ _ _ _ _ Rf lp (Inc lp (or_introl eq_refl))) (s, l) a J Af NZ)) as G.
      unfold arrival in G. cbn [snd] in G. rewrite El in G. exact G.
    + intros x. now apply (W (s, l) a ws x J).
Qed.

(** * Everything *)
Lemma files_text : forall lib M junk junk_int tenth of_word unknown files hclg why lm_fuel header_error fn m blocks fb,
  let O := ieee lib in let X := ieee_wide in
  libm M -> fbank_new O (ieee_trig M) (ieee_init M) junk junk_int = Ok fb ->
  stored O of_word files hclg fn m -> network_fits m blocks ->
  forall wm good, model_words O of_word lm_fuel m wm good ->
  forall input bits chunk size data xs rest,
  ends_in input (lit ".wav") -> files input = Some (wav bits chunk size data) -> wav_sizes bits chunk size -> byte_list data ->
  AudioSpec.decodes (Z.to_nat (bits / 8)) data xs rest ->
  exists rc rows,
    made_of O of_word (ieee_trig M) (ieee_init M) junk junk_int lm_fuel m rc /\
    rows_of O rc (left_context blocks) (right_context blocks) (map (f_int O) xs) rows /\
  forall states,
  let cfg := utt_config O tenth rc in
  run_fits O X cfg wm good rows states -> (forall fuel, run_safe O X cfg fuel (rc_cache rc) rows) ->
  lively cfg states -> finite_costs O X cfg wm rows -> brief O X cfg wm rows -> ends cfg states -> listed m states ->
  exists fuel0 words names,
    Forall2 (fun w name => In (name, w) (m_words m)) words names /\
    (words = [] \/ exists s c total,
       path O X (m_graph m) (m_tid2pdf m) tenth wm (rev rows) s c words /\
       ending X (m_graph m) wm true s c total /\ x_is_inf X total = false) /\
    forall fuel, (fuel0 <= fuel)%nat ->
      (exists dec weight, DecoderSpec.decodes O X cfg collector fuel (rc_cache rc) rows dec /\
         best_path O X cfg (end_of_stream dec) = Ok (rev words, weight)) /\
      run_main O X tenth fuel files
        (stt_load O (ieee_trig M) (ieee_init M) junk junk_int of_word unknown files hclg why lm_fuel) header_error [fn; input]
      = Ok (join [32] names ++ [10], 0).
Proof.
  intros lib M junk junk_int tenth of_word unknown files hclg why lm_fuel header_error fn m blocks fb O X HM Efb St Nf wm good Mw
    input bits chunk size data xs rest Hend Hfile Hsize Hb Dx.
  destruct (LoadingCases.loaded_parts O (ieee_trig M) (ieee_init M) junk junk_int of_word unknown files hclg why lm_fuel fn m fb St Efb)
    as (rc & ps0 & Eload & Hmade).
  pose proof Hmade as (A0 & _ & _ & _ & _ & _ & A6 & A7 & _ & A9 & _).
  pose proof (network_am_fits O of_word m blocks _ _ _ _ _ rc Nf Hmade) as Af.
  destruct (model_lm _ O of_word lm_fuel m _ _ _ _ rc wm good Hmade Mw) as (Hlm & Hgood).
  assert (Sup : supported (mk_format 1 16000 bits)).
  { destruct Hsize as (V & _). repeat split; auto. }
  destruct (session_audio lib M junk junk_int _ tenth rc wm good HM A9 Hlm (left_context blocks) (right_context blocks)
    (Z.to_nat (m_chunk m)) (mk_format 1 16000 bits) xs data rest Af Sup Dx) as (rows & Hrows & H).
  exists rc, rows. split; [exact Hmade|]. split; [exact Hrows|]. intros states cfg Rf Rs Li Fc Br En Ls.
  assert (Nm : named rc states).
  { intros s a J Ha NZ. rewrite A0 in Ha. destruct (Ls s a J Ha NZ) as (name & Jn). exists name. apply (A7 _ _ Jn). }
  destruct (H states Hgood Rf Rs Li Fc Br En Nm) as (fuel0 & dec & words & weight & mem & Eb & Sp & Hf).
  destruct (Stt.spells_cstr _ _ _ Sp) as (names & Hn & Ecs & _).
  destruct (Hf fuel0 [] (le_n _)) as (Dec0 & _).
  pose proof (DecoderMain.hypothesis_path O X cfg wm good Hlm (proj2 (ieee_strict lib)) fuel0 (rc_cache rc) rows dec Hgood (Rs fuel0) Dec0 true words weight Eb) as Hp.
  assert (Hpath : rev words = [] \/ exists s c total,
       path O X (m_graph m) (m_tid2pdf m) tenth wm (rev rows) s c (rev words) /\
       ending X (m_graph m) wm true s c total /\ x_is_inf X total = false).
  { destruct Hp as [(-> & _)|(s & c & total & w & _ & P & E & _ & _ & Ni & _)]; [now left|]. right.
    exists s, c, total. unfold cfg, utt_config, new_config in P, E. cbn [c_graph c_pdf c_scale] in P, E.
    rewrite A0, A6 in P. rewrite A0 in E. auto. }
  exists fuel0, (rev words), names. split; [|split; [exact Hpath|]].
  - assert (Hl : forall x, In x (rev words) -> exists name, In (name, x) (m_words m)).
    { destruct Hpath as [-> |(s & c & total & P & _)]; [intros x []|].
      refine (proj2 (path_words _ _ _ O X cfg wm good states rows _ Rf _ (rev rows) s c _ _ _)).
      - intros s0 a J Ha NZ. apply (Ls s0 a J); [|exact NZ]. rewrite <- A0. exact Ha.
      - unfold cfg, utt_config, new_config. cbn [c_graph c_pdf c_scale]. rewrite A0, A6. exact P.
      - intros x J. now apply in_rev. }
    clear - Hn Hl A7. induction Hn as [|x name xs names Hx _ IH]; constructor.
    + destruct (Hl x (or_introl eq_refl)) as (name' & J). destruct (A7 _ _ J) as (G & _). rewrite Hx in G. injection G as <-. exact J.
    + apply IH. intros y J. apply Hl. now right.
  - intros fuel Hfuel. destruct (Hf fuel [] Hfuel) as (Dec & u & Eu & Hu).
    split; [exists dec, weight; rewrite rev_involutive; auto|].
    destruct (Program.audio_pieces O X tenth fuel files (fun _ : bytes => Ok (inl rc)) header_error (S (List.length data)) data (le_n _) Hb) as (ps & Pp & Pc & _).
    destruct (Hu ps Pp Pc) as (ns & ll & Es & _).
    assert (Hl : stt_load O (ieee_trig M) (ieee_init M) junk junk_int of_word unknown files hclg why lm_fuel fn = Ok (inl rc))
      by (unfold stt_load; rewrite Eload; reflexivity).
    pose proof (Program.main_wav O X tenth fuel files _ header_error fn input rc bits chunk size data [] u [] ps Hl Hend Hfile Hsize Hb Eu Pp Pc) as Ha.
    change (session O X tenth fuel [] (Some u) ps = Ok (ns, mem, ll)) in Es. rewrite Es in Ha. destruct (run_main _ _ _ _ _ _ _ _) as [[out code]|]; [|destruct Ha].
    destruct Ha as (-> & ->). rewrite Ecs. reflexivity.
Qed.
