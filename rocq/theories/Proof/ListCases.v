(** A list of two files that can be decoded. *)
From Coq Require Import ZArith String List Bool Lia.
From Verif.Base Require Import Prelude Lemmas.
From Verif.Spec Require Import AudioSpec FbankSpec PcmSpec TextSpec NnetSpec DecoderSpec SttSpec TotalSpec SessionSpec LibmSpec LoadingSpec ProgramSpec EndSpec ListSpec.
From Verif.Model Require Import Util File Arith Pcm Fbank Srfft FbankInit SymbolTable Fst Decoder Stt Main Loading Ieee IeeeFbank.
From Verif.Proof Require Import Loop IeeeCases TotalCases FiniteCases EndCases.
From Verif.Proof Require Program ProgramCases DecoderRun Lines.
Import ListNotations.
Open Scope Z_scope.

Lemma wav_inj : forall bits chunk size data bits' chunk' size' data', wav_sizes bits chunk size -> wav_sizes bits' chunk' size' ->
  wav bits chunk size data = wav bits' chunk' size' data' -> bits = bits' /\ data = data'.
Proof.
  intros bits chunk size data bits' chunk' size' data' H H' E.
  pose proof (Program.wav_header bits chunk size data H) as R. rewrite E, (Program.wav_header _ _ _ _ H') in R.
  injection R. auto.
Qed.

Lemma finite_less : forall F D C (O : fops F) (X : xops F D) (cfg : config F C) wm frames x,
  finite_costs O X cfg wm (frames ++ [x]) -> finite_costs O X cfg wm frames.
Proof.
  intros F D C O X cfg wm frames x H later fs s c ws E P. specialize (H (x :: later) fs s c ws). rewrite rev_app_distr in H. cbn [rev app] in H.
  rewrite E in H. destruct (H eq_refl P) as (H1 & H2). split; [exact H1|]. intros later' logp a ac -> . exact (H2 (x :: later') logp a ac eq_refl).
Qed.

(** [n] equal samples. *)
Definition tone (n : nat) : bytes := concat (repeat [7; 250] n).
Lemma tone_decodes : forall n, AudioSpec.decodes 2 (tone n) (repeat (-1529) n) [].
Proof.
  intros n. unfold tone, AudioSpec.decodes. rewrite app_nil_r. split; [|split; [|cbn; lia]].
  - induction n as [|n IH]; [reflexivity|]. cbn [repeat concat map]. rewrite IH. reflexivity.
  - apply Forall_forall. intros x J. apply repeat_spec in J. subst x. unfold fits. cbn. lia.
Qed.
Lemma tone_bytes : forall n, byte_list (tone n).
Proof.
  intros n. apply Forall_forall. intros x J. apply in_concat in J.
  destruct J as (l & J & Jx). apply repeat_spec in J. subst l. destruct Jx as [<-|[<-|[]]]; lia.
Qed.

Notation O := (ieee rough).
Lemma decodable11 : forall M junk junk_int lm_fuel rc n chunk size rows, libm M ->
  made_of O bits32 (ieee_trig M) (ieee_init M) junk junk_int lm_fuel model11 rc ->
  wav_sizes 16 chunk size -> byte_list (wav 16 chunk size (tone n)) ->
  repeat row9 (num_windows 400 160 n) = rows -> rows = [row9] \/ rows = [row9; row9] ->
  decodable O ieee_wide (tenth 1) model11 None (fun _ => True) blocks11 rc (wav 16 chunk size (tone n)).
Proof.
  intros M junk junk_int lm_fuel rc n chunk size rows HM Hm Hs Hb Er Hr. split.
  { exists 16, chunk, size, (tone n), (repeat (-1529) n), []. split; [reflexivity|]. split; [exact Hs|]. split; [exact Hb|]. apply tone_decodes. }
  intros rows' (bits & chunk' & size' & data & xs & rest & Ew & Hs' & _ & Dx & Hrows).
  destruct (wav_inj _ _ _ _ _ _ _ _ Hs Hs' Ew) as (<- & <-). change (Z.to_nat (16 / 8)) with 2%nat in Dx.
  pose proof Hm as (A0 & _ & _ & _ & _ & _ & A6 & _ & _ & A9 & A10). cbn [m_lm model11 m_graph m_tid2pdf] in A0, A6, A10.
  assert (Lx : List.length xs = n).
  { destruct Dx as (D1 & _ & D3). pose proof (f_equal (@List.length Z) D1) as L. unfold tone in L.
    assert (Lt : forall k, List.length (concat (repeat [7; 250] k)) = (2 * k)%nat) by (intros k; induction k; cbn [repeat concat app List.length]; lia).
    assert (Le : List.length (concat (map (encode 2) xs)) = (2 * List.length xs)%nat).
    { clear. induction xs as [|x xs IH]; [reflexivity|]. cbn [map concat]. rewrite app_length, IH. change (List.length (encode 2 x)) with 2%nat. cbn [List.length]. lia. }
    rewrite Lt, app_length, Le in L. lia. }
  assert (E : rows' = rows).
  { change (left_context blocks11) with 1%nat in Hrows. change (right_context blocks11) with 1%nat in Hrows.
    rewrite (rows11 _ _ _ _ _ _ _ _ Hm (audio_features rough M junk junk_int _ rc 2 xs HM A9 (le_S _ _ (le_S _ _ (le_n 2))) (proj1 (proj2 Dx))) Hrows).
    rewrite map_length, Lx. exact Er. }
  subst rows'.
  assert (Ec : utt_config O (tenth 1) rc = new_config O TotalCases.graph9 [0; 0; 1] (tenth 1) None).
  { unfold utt_config. now rewrite A0, A6, A10. }
  intros cfg. unfold cfg. clear cfg. rewrite Ec. exists states9.
  split; [apply run_fits11; intros r J; destruct Hr as [-> | ->]; cbn [In] in J; intuition|].
  split.
  { intros fuel. apply (DecoderRun.safe_20 O ieee_wide (new_config O TotalCases.graph9 [0; 0; 1] (tenth 1) None) None (fun _ => True) Logic.I fuel (rc_cache rc) _ Logic.I).
    destruct Hr as [-> | ->]; discriminate. }
  split; [exact (lively9 rough)|].
  split; [destruct Hr as [-> | ->]; [apply (finite_less _ _ _ _ _ _ _ [row9] row9)|]; exact (finite9 rough)|].
  split; [exact (brief9 rough rows)|]. split; [intros s m _ E; discriminate E|].
  intros s a J Af NZ. apply arcs9 in Af. destruct Af as [(E & [-> | ->])|[(E & [-> | ->])|(E & ->)]]; try (exfalso; apply NZ; reflexivity).
  + exists (lit "so"). cbn. tauto.
  + exists (lit "what"). cbn. tauto.
Qed.

Definition entries13 : list (bytes * bytes) := [(lit "v1", lit "u.wav"); (lit "v2", lit "x.wav")].
Definition files13 (name : str) : option str :=
  if str_eqb name (lit "l.scp") then Some (list_file entries13)
  else if str_eqb name (lit "x.wav") then Some (wav 16 836 800 (tone 400))
  else files11 name.

Lemma stored13 : stored O bits32 files13 hclg11 (lit "d/m") model11.
Proof.
  destruct stored11 as (content & lines & Fc & Cl & Hg & Hn & Hp & H1 & H2 & H3 & H4 & Ht & Hs & Hl).
  assert (K : forall p c, files11 p = Some c -> files13 p = Some c).
  { intros p c E. unfold files13. destruct (str_eqb p (lit "l.scp")) eqn:E1.
    - apply Lines.str_eqb_eq in E1. subst p. discriminate E.
    - destruct (str_eqb p (lit "x.wav")) eqn:E2; [|exact E]. apply Lines.str_eqb_eq in E2. subst p. discriminate E. }
  assert (S : forall k good, stored_at files11 (lit "d/m") lines k good -> stored_at files13 (lit "d/m") lines k good).
  { intros k good (p & c & P1 & P2 & P3). exists p, c. auto. }
  exists content, lines. split; [now apply K|]. split; [exact Cl|]. split; [exact Hg|].
  split; [now apply S|]. split; [now apply S|]. split; [exact H1|]. split; [exact H2|]. split; [exact H3|]. split; [exact H4|].
  split; [now apply S|]. split; [now apply S|]. exact Hl.
Qed.

Lemma list13 : ~ ends_in (lit "l.scp") (lit ".wav") /\ 4 <= lenZ (lit "l.scp") /\ files13 (lit "l.scp") = Some (list_file entries13) /\
  Forall entry_ok entries13 /\
  forall M junk junk_int lm_fuel rc, libm M -> made_of O bits32 (ieee_trig M) (ieee_init M) junk junk_int lm_fuel model11 rc ->
  Forall (fun e => exists content, files13 (snd e) = Some content /\
    decodable O ieee_wide (tenth 1) model11 None (fun _ => True) blocks11 rc content) entries13.
Proof.
  split; [apply (ProgramCases.not_wav _ (lit "l") (lit ".scp")); [reflexivity|reflexivity|discriminate]|].
  split; [vm_compute; discriminate|]. split; [reflexivity|].
  split.
  { unfold entries13. repeat (apply Forall_cons; [split; [apply ProgramCases.clean_lit; reflexivity|]; split; [apply ProgramCases.clean_lit; reflexivity|]; split; [discriminate|reflexivity]|]). constructor. }
  intros M junk junk_int lm_fuel rc HM Hm. constructor; [|constructor; [|constructor]].
  - exists (wav 16 1156 1120 (tone 560)). split; [reflexivity|].
    apply (decodable11 M junk junk_int lm_fuel rc 560 1156 1120 [row9; row9] HM Hm wav11); [|reflexivity|now right].
    apply ProgramCases.wav_bytes; [apply tone_bytes|reflexivity].
  - exists (wav 16 836 800 (tone 400)). split; [reflexivity|].
    apply (decodable11 M junk junk_int lm_fuel rc 400 836 800 [row9] HM Hm); [unfold wav_sizes, valid_width, fits; cbn; lia| |reflexivity|now left].
    apply ProgramCases.wav_bytes; [apply tone_bytes|reflexivity].
Qed.
