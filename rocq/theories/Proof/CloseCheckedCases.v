(** A checked model of two words, and a list of files whose costs stay close together. *)
From Coq Require Import ZArith String List Bool Lia Floats.SpecFloat.
From Verif.Base Require Import Prelude Lemmas.
From Verif.Spec Require Import AudioSpec AmSpec FbankSpec PcmSpec TextSpec FormatSpec NnetSpec AmTextSpec FstSpec DecoderSpec SttSpec TotalSpec SessionSpec LibmSpec ValueSpec LoadingSpec ProgramSpec EndSpec ListSpec CommandSpec PlainSpec ExpSpec LmPlainSpec CheckedSpec CloseSpec.
From Verif.Model Require Import Util File Arith Vector Pcm Fbank Srfft FbankInit Nnet Am SymbolTable Pool Fst Decoder Stt Main Loading Ieee IeeeFbank.
From Verif.Proof Require Import Loop Lines IeeeLaws TotalCases FiniteCases EndToEnd EndCases CommandUse ExpLimits ExpProgram ExpCases Checked CheckedCases CloseCases CloseChecked.
From Verif.Proof Require Import IeeeCases ListCases.
From Verif.Proof Require Nnet AmVerify LoadingCases Windows PlainCases ProgramCases ExpUse SttTotal.
Import ListNotations.
Open Scope Z_scope.

Definition model20 : model (graph float32) :=
  mk_model graph9 (layers17 mild_word) [1065353216; 1065353216] 1 1 2 2 [0; 0; 1] words11 9 8 None.
Definition files20 (name : str) : option str :=
  if str_eqb name (lit "l.scp") then Some (list_file entries13)
  else if str_eqb name (lit "x.wav") then Some (wav 16 836 800 (tone 400))
  else files17 mild_word name.

Lemma stored20 : stored (ieee loud) bits32 files20 hclg11 (lit "d/m") model20.
Proof.
  destruct (stored17 _ mild_fits) as (content & lines & Fc & Cl & Hg & Hn & Hp & H1 & H2 & H3 & H4 & Ht & Hs & Hl).
  assert (K : forall p c, files17 mild_word p = Some c -> files20 p = Some c).
  { intros p c E. unfold files20. destruct (str_eqb p (lit "l.scp")) eqn:E1.
    - apply Lines.str_eqb_eq in E1. subst p. discriminate E.
    - destruct (str_eqb p (lit "x.wav")) eqn:E2; [|exact E]. apply Lines.str_eqb_eq in E2. subst p. discriminate E. }
  assert (S : forall k good, stored_at (files17 mild_word) (lit "d/m") lines k good -> stored_at files20 (lit "d/m") lines k good).
  { intros k good (p & c & P1 & P2 & P3). exists p, c. auto. }
  exists content, lines. split; [now apply K|]. split; [exact Cl|].
  split.
  { destruct Hg as (p & P1 & P2). exists p. split; [exact P1|]. unfold hclg13, hclg11 in *. destruct (str_eqb p (lit "d/g")); [reflexivity|discriminate P2]. }
  split; [now apply S|]. split; [now apply S|]. split; [exact H1|]. split; [exact H2|]. split; [exact H3|]. split; [exact H4|].
  split; [now apply S|]. split; [now apply S|]. exact Hl.
Qed.

Lemma checked20 : forall lm_fuel, checked_model loud bits32 lm_fuel (tenth 1) model20 (blocks17 mild_word) 1 before17.
Proof.
  intros lm_fuel. destruct (checked19 (4 + lm_fuel) ltac:(lia)) as [A1 A2 A3 A4 A5 A6 A7 A8 _].
  constructor; try assumption.
  - destruct A1. constructor; assumption.
  - intros costs t E. discriminate E.
Qed.

(** * The rows *)
Notation O := (ieee loud).
Notation net20 := (nnet_propagate O (map (layer_numbers bits32) (layers17 mild_word))).
Definition row20 : list float32 := [num 1 0; num 0 0].

Lemma net20_row : forall w, uniform 40 w -> List.length w = 3%nat -> net20 w = Ok [row20].
Proof.
  intros w U Lw. set (first := [Splice [-1; 0; 1]; Narrow 1 1] : list (layer float32)).
  set (W := map (map bits32) (repeat [1065353216; -1082130432] 120)). set (b := map bits32 [mild_word; 0]).
  change (map (layer_numbers bits32) (layers17 mild_word)) with (first ++ [Linear W b; LogSoftmax]).
  assert (Run : runs_on 40 first 120).
  { apply RunSplice; [discriminate|]. apply RunNarrow; [lia|lia|]. constructor. }
  assert (NW : w <> []) by (intros ->; discriminate Lw).
  destruct (AmVerify.runs_ok O _ _ _ Run ltac:(lia) w NW U) as (y & E & NY & UY).
  assert (Loc : local (nnet_propagate O first) 1 1 40).
  { apply (Nnet.stack_local O [Context [-1; 0; 1]] 40); [|lia]. repeat constructor. discriminate. }
  pose proof (proj1 (Loc w y U ltac:(lia)) E) as H. apply Forall2_len in H.
  rewrite Windows.windows_1_length, Lw in H.
  destruct y as [|r [|r2 y]]; cbn [List.length] in H; try lia.
  destruct (tail_last _ O [Linear W b; LogSoftmax] first w [] [r] E) as (old' & G). unfold nnet_propagate. rewrite G.
  inversion UY as [|? ? Hr _]; subst. cbn [propagate_all propagate]. unfold linear.
  change (num_cols [r]) with (lenZ r). rewrite Hr.
  change (negb (lenZ b =? 0)) with true. change (lenZ [r]) with 1.
  change (Z.of_nat 120 =? lenZ W) with true. change (num_cols W) with 2.
  cbn [check bind map_rows]. unfold mat_row. change (num_cols W) with 2. change (seq 0 (Z.to_nat 2)) with [0%nat; 1%nat]. cbn [map].
  change (mat_shape 1 2) with (Ok tt). cbn [bind].
  assert (A : add_vec O [f_dot O r (column O 0 W); f_dot O r (column O 1 W)] b = Ok [num 1 0; num 0 0]).
  { unfold add_vec. change (lenZ [f_dot O r (column O 0 W); f_dot O r (column O 1 W)] =? lenZ b) with true. cbn [check bind map2 b map].
    reflexivity. }
  rewrite A. reflexivity.
Qed.

Lemma rows20 : forall T I junk junk_int lm_fuel rc samples rows,
  made_of O bits32 T I junk junk_int lm_fuel model20 rc -> features_fit O rc 40 samples ->
  rows_of O rc 1 1 samples rows -> rows = repeat row20 (num_windows 400 160 (List.length samples)).
Proof.
  intros T I junk junk_int lm_fuel rc samples rows (_ & _ & _ & _ & Hp & Hn & _) Hd (feats & H1 & H2).
  assert (Uf : uniform 40 feats).
  { unfold features_fit in Hd. clear - H1 Hd. induction H1 as [|w r ws rs (b & E) _ IH]; [constructor|]. constructor.
    - destruct (Hd w (or_introl eq_refl)) as (r' & b' & E' & Lr). rewrite E in E'. now injection E' as <- _.
    - apply IH. intros x J. apply Hd. now right. }
  assert (Lf : List.length feats = num_windows 400 160 (List.length samples)).
  { rewrite <- (Forall2_len _ _ _ _ _ H1). unfold windows. now rewrite map_length, seq_length. }
  rewrite <- Lf.
  assert (Lr : List.length rows = List.length feats).
  { rewrite <- (Forall2_len _ _ _ _ _ H2). rewrite Windows.windows_1_length. unfold padded.
    destruct feats as [|x fs]; [reflexivity|]. rewrite !app_length, !repeat_length. cbn [List.length]. lia. }
  rewrite <- Lr.
  assert (Up : uniform 40 (padded 1 1 feats)) by (apply SttTotal.padded_forall; exact Uf).
  assert (Hr : Forall (fun r => r = row20) rows).
  { assert (Hw : Forall (fun w => uniform 40 w /\ List.length w = 3%nat) (windows 3 1 (padded 1 1 feats))).
    { apply Forall_forall. intros w J. split; [|exact (SttTotal.windows_one _ _ _ _ J)].
      exact (SttTotal.windows_uniform _ 3 1 _ _ Up w J). }
    clear - H2 Hw Hp Hn. change (Datatypes.S (1 + 1)) with 3%nat in H2.
    induction H2 as [|w r ws rs (x & Ex & Hl & Hx) _ IH]; constructor; [|inversion Hw; auto].
    inversion Hw as [|? ? (U & Lw) _]; subst. rewrite Hn in Ex. cbn [m_layers model20] in Ex. rewrite (net20_row w U Lw) in Ex. injection Ex as <-.
    rewrite Hp in Hx. cbn [m_prior model20 map] in Hx.
    destruct r as [|a1 [|a2 [|a3 r]]]; try discriminate Hl.
    pose proof (Hx 0%nat (num 0 0) ltac:(cbn; lia)) as N0. pose proof (Hx 1%nat (num 0 0) ltac:(cbn; lia)) as N1.
    unfold row20 in N0, N1. cbn [nth] in N0, N1. rewrite N0, N1. unfold row20.
    vm_compute. reflexivity. }
  clear - Hr. induction Hr; cbn; congruence.
Qed.


(** * The costs *)
Lemma close20 : forall C (cfg : config float32 C) n, c_graph cfg = graph9 -> c_pdf cfg = [0; 0; 1] -> c_scale cfg = tenth 1 ->
  n = 1%nat \/ n = 3%nat -> close_costs loud cfg None (repeat row20 n).
Proof.
  intros C cfg n E1 E2 E3 H.
  set (c := new_config O graph9 [0; 0; 1] (tenth 1) None : config float32 unit).
  set (l0 := first_layer loud c). set (l1 := next_layer loud c row20 l0). set (l2 := next_layer loud c row20 l1). set (l3 := next_layer loud c row20 l2).
  destruct H as [-> | ->]; [apply (layered_close loud c C cfg (-7) _ [l1; l0])|apply (layered_close loud c C cfg (-7) _ [l3; l2; l1; l0])];
    try assumption; try lia; vm_compute; reflexivity.
Qed.

Lemma close_tone : forall M junk junk_int lm_fuel rc n chunk size, libm M ->
  made_of O bits32 (ieee_trig M) (ieee_init M) junk junk_int lm_fuel model20 rc ->
  wav_sizes 16 chunk size -> num_windows 400 160 n = 1%nat \/ num_windows 400 160 n = 3%nat ->
  close_wav loud (tenth 1) None (blocks17 mild_word) rc (wav 16 chunk size (tone n)).
Proof.
  intros M junk junk_int lm_fuel rc n chunk size HM Hm Hs Hn rows (bits' & chunk' & size' & data' & xs' & rest' & Ec' & Hsz' & _ & Dx' & Hrows).
  destruct (wav_inj _ _ _ _ _ _ _ _ Hs Hsz' Ec') as (<- & <-).
  change (Z.to_nat (16 / 8)) with 2%nat in Dx'.
  assert (xs' = repeat (-1529) n) as ->.
  { pose proof (tone_decodes n) as (D1 & D2 & D3). destruct Dx' as (D1' & D2' & D3').
    apply (SttCut.decodes_unique 2 ltac:(lia) xs' (repeat (-1529) n) rest' []); auto. congruence. }
  pose proof Hm as (A0 & _ & _ & _ & _ & _ & A6 & _ & _ & A9 & _). cbn [m_lm model20 m_graph m_tid2pdf] in A0, A6.
  change (left_context (blocks17 mild_word)) with 1%nat in Hrows. change (right_context (blocks17 mild_word)) with 1%nat in Hrows.
  pose proof (rows20 _ _ _ _ _ _ _ _ Hm (audio_features loud M junk junk_int _ rc 2 _ HM A9 (le_S _ _ (le_S _ _ (le_n 2))) (proj1 (proj2 Dx'))) Hrows) as Er.
  rewrite map_length, repeat_length in Er. rewrite Er.
  apply close20; [exact A0|exact A6|reflexivity|exact Hn].
Qed.

Lemma list20 : ~ ends_in (lit "l.scp") (lit ".wav") /\ 4 <= lenZ (lit "l.scp") /\ files20 (lit "l.scp") = Some (list_file entries13) /\
  Forall ProgramSpec.entry_ok entries13 /\
  forall M junk junk_int lm_fuel rc wm, libm M -> made_of O bits32 (ieee_trig M) (ieee_init M) junk junk_int lm_fuel model20 rc ->
  weights_of O bits32 model20 wm ->
  Forall (fun e => exists content, files20 (snd e) = Some content /\ short_wav model20 1 content /\
    close_wav loud (tenth 1) wm (blocks17 mild_word) rc content) entries13.
Proof.
  destruct list13 as (A1 & A2 & _ & A4 & _).
  split; [exact A1|]. split; [exact A2|]. split; [reflexivity|]. split; [exact A4|].
  intros M junk junk_int lm_fuel rc wm HM Hm Hw. cbn in Hw. subst wm.
  destruct list19 as (_ & _ & _ & _ & L). unfold entries19 in L.
  inversion L as [|? ? (c1 & F1 & U) L1]; subst. inversion L1 as [|? ? (c2 & F2 & V) _]; subst. injection F1 as <-. injection F2 as <-.
  unfold entries13. constructor; [|constructor; [|constructor]].
  - eexists. split; [reflexivity|]. split; [exact U|]. change audio17 with (tone 720). apply (close_tone M junk junk_int lm_fuel); auto. exact wav17.
  - eexists. split; [reflexivity|]. split; [exact V|]. apply (close_tone M junk junk_int lm_fuel); auto. unfold wav_sizes, valid_width, fits; cbn; lia.
Qed.
