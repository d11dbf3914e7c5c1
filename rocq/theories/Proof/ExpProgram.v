(** A program whose decoder fails. *)
From Coq Require Import ZArith String List Bool Lia Floats.SpecFloat.
From Verif.Base Require Import Prelude ZMap Lemmas.
From Verif.Spec Require Import AudioSpec AmSpec FbankSpec PcmSpec TextSpec NnetSpec DecoderSpec SttSpec TotalSpec SessionSpec LibmSpec LoadingSpec ProgramSpec EndSpec.
From Verif.Model Require Import Util File Arith Vector Pcm Fbank Srfft FbankInit Am SymbolTable Pool OLabel Fst Decoder Stt Main Loading Ieee IeeeFbank.
From Verif.Proof Require Import Loop Stt SttCut SttTotal FiniteCases EndToEnd.
From Verif.Proof Require Pcm PcmCases LoadingCases Program.
Import ListNotations.
Open Scope Z_scope.

Section Mute.
Context {F D C : Type} (O : fops F) (X : xops F D).

(** The rows one after another, whatever [Process] returns. *)
Definition feed (cfg : config F C) (fuel : nat) (d : decoder F C) (rows : list (list F)) : res (decoder F C) :=
  for_each rows (fun d logp => '(d, _) <- process O X cfg collector fuel d logp ;; Ok d) d.

(** The hypotheses that are looked at on the way have no words. *)
Fixpoint mute (cfg : config F C) (fuel : nat) (d : decoder F C) (rows : list (list F)) : bool :=
  match rows with
  | [] => true
  | logp :: rows =>
      match process O X cfg collector fuel d logp with
      | Ok (d, _) =>
          (if Z.rem (d_frames d) 20 =? 0 then match best_path O X cfg d with Ok ([], _) => true | _ => false end else true) &&
          mute cfg fuel d rows
      | Fault _ => true
      end
  end.

Lemma mute_app : forall cfg fuel a b d, mute cfg fuel d (a ++ b) = true -> mute cfg fuel d a = true.
Proof.
  intros cfg fuel a b. induction a as [|logp a IH]; intros d H; [reflexivity|]. cbn [app mute] in *.
  destruct (process O X cfg collector fuel d logp) as [[d1 r]|]; [|reflexivity].
  apply andb_true_iff in H. destruct H as (H1 & H2). rewrite H1. cbn [andb]. now apply IH.
Qed.

Variables (tenth : F) (rc : recognizer F C).
Notation cfg := (utt_config O tenth rc).

Lemma mute_rows : forall fuel rows d out, mute cfg fuel d rows = true ->
  match feed cfg fuel d rows with
  | Ok d' => exists out', for_each rows (decode_row O X tenth fuel rc) (d, out) = Ok (d', out')
  | Fault e => for_each rows (decode_row O X tenth fuel rc) (d, out) = Fault e
  end.
Proof.
  intros fuel. unfold feed. induction rows as [|logp rows IH]; intros d out T; cbn [for_each].
  - exists out. reflexivity.
  - cbn [mute] in T. unfold decode_row at 1 3. change (ogc label_block) with collector.
    destruct (process O X cfg collector fuel d logp) as [[d1 r]|]; cbn [bind]; [|reflexivity].
    apply andb_true_iff in T. destruct T as (T1 & T2).
    destruct (Z.rem (d_frames d1) 20 =? 0); [|cbn [bind]; exact (IH d1 out T2)].
    destruct (best_path O X cfg d1) as [[[|x ws] w]|] eqn:Eb; try discriminate T1.
    destruct (store_total O X tenth rc d1 out [] w Eb) as (hyp & Es & _); [intros x []|]. rewrite Es. cbn [bind]. exact (IH d1 _ T2).
Qed.

Lemma session_fails : forall L R c dim f xs stream rest,
  features_fit O rc dim (map (f_int O) xs) -> am_fits rc L R c dim -> supported f ->
  AudioSpec.decodes (Z.to_nat (w_bits f / 8)) stream xs rest ->
  exists rows, rows_of O rc L R (map (f_int O) xs) rows /\
  forall fuel d0 d1 e, new_decoder (rc_cache rc) = Ok d0 -> initialize O X cfg fuel d0 = Ok d1 ->
  mute cfg fuel d1 rows = true -> feed cfg fuel d1 rows = Fault e ->
  forall err, exists u, utt_init O X tenth fuel err rc f = Ok (Some u, err) /\
    forall ps, Forall piece ps -> concat ps = stream -> exists e', session O X tenth fuel err (Some u) ps = Fault e'.
Proof.
  intros L R c dim f xs stream rest Fs Af Sf Dx.
  destruct (rows_ok O rc L R c dim (map (f_int O) xs) Fs Af) as (feats & outs & a & rest' & a' & Hf & Er & Ee & Hr).
  set (rows := concat outs ++ rest') in *. exists rows. split; [exact Hr|].
  intros fuel d0 d1 e E0 Ei T Ea err. eexists. split.
  { unfold utt_init. rewrite E0. cbn [bind]. rewrite Ei. cbn [bind].
    destruct (PcmCases.set_format_cases reader_init f) as [[Q1 Q2]|[Q1 Q2]]; [rewrite Q2|contradiction]. reflexivity. }
  intros ps Hps Ec.
  destruct f as [ch rate bits]. destruct Sf as (S3 & S4 & S5). cbn [w_channels w_rate w_bits] in *. subst ch rate. unfold valid_width in S5.
  destruct (session_whole O X tenth fuel any (fun _ => Logic.I) bits rc ps err d1 S5 Hps (or_introl (fun _ _ => Logic.I))) as (ys & r2 & D2 & A2).
  assert (Ew : Z.to_nat (bits / 8) = Verif.Proof.Pcm.width bits) by (destruct S5 as [-> | [-> | ->]]; reflexivity). rewrite Ew in Dx.
  assert (P : (0 < Verif.Proof.Pcm.width bits)%nat) by (destruct S5 as [-> | [-> | ->]]; cbv; lia).
  assert (ys = xs) as ->.
  { destruct Dx as (Q1 & F1' & L1), D2 as (Q2 & F2' & L2).
    apply (decodes_unique (Verif.Proof.Pcm.width bits) P ys xs r2 rest); auto. congruence. }
  pose proof (mute_rows fuel (concat outs) d1 ([0], f_zero O) (mute_app _ _ _ _ _ T)) as Hm.
  assert (Ewh : whole O X tenth fuel rc d1 xs = Fault e).
  { unfold whole. pose proof (decode_windows O X tenth rc fuel _ _ _ _ _ (d1, ([0], f_zero O)) Hf Er) as Ed.
    match goal with |- context [for_each ?l ?g ?t] => match type of Ed with _ = ?r => assert (Ed' : for_each l g t = r) by exact Ed; rewrite Ed' end end.
    unfold feed, rows in Ea. rewrite for_each_app in Ea. fold (feed cfg fuel d1 (concat outs)) in Ea.
    destruct (feed cfg fuel d1 (concat outs)) as [dm|e1].
    - destruct Hm as ((h & ll) & Hm).
      match goal with |- context [for_each (concat outs) ?g ?s] => assert (Hm' : for_each (concat outs) g s = Ok (dm, (h, ll))) by exact Hm; rewrite Hm' end. cbn [bind] in *. rewrite Ee. cbn [bind].
      change (ogc label_block) with collector. rewrite Ea. reflexivity.
    - match goal with |- context [for_each (concat outs) ?g ?s] => assert (Hm' : for_each (concat outs) g s = Fault e1) by exact Hm; rewrite Hm' end. cbn [bind] in *. congruence. }
  rewrite Ewh in A2. unfold alike in A2.
  match type of A2 with match ?m with _ => _ end => destruct m as [y|e'] eqn:Esn; [destruct A2|] end.
  exists e'. exact Esn.
Qed.
End Mute.

Lemma files_fail : forall lib M junk junk_int tenth of_word unknown files hclg why lm_fuel header_error fn m blocks fb,
  let O := ieee lib in let X := ieee_wide in
  libm M -> fbank_new O (ieee_trig M) (ieee_init M) junk junk_int = Ok fb ->
  stored O of_word files hclg fn m -> network_fits m blocks ->
  forall input bits chunk size data xs rest,
  ends_in input (lit ".wav") -> files input = Some (wav bits chunk size data) -> wav_sizes bits chunk size -> byte_list data ->
  AudioSpec.decodes (Z.to_nat (bits / 8)) data xs rest ->
  exists rc rows,
    made_of O of_word (ieee_trig M) (ieee_init M) junk junk_int lm_fuel m rc /\
    rows_of O rc (left_context blocks) (right_context blocks) (map (f_int O) xs) rows /\
  let cfg := utt_config O tenth rc in
  forall fuel d0 d1 e, new_decoder (rc_cache rc) = Ok d0 -> initialize O X cfg fuel d0 = Ok d1 ->
  mute O X cfg fuel d1 rows = true -> feed O X cfg fuel d1 rows = Fault e ->
  exists e', run_main O X tenth fuel files
      (stt_load O (ieee_trig M) (ieee_init M) junk junk_int of_word unknown files hclg why lm_fuel) header_error [fn; input]
    = Fault e'.
Proof.
  intros lib M junk junk_int tenth of_word unknown files hclg why lm_fuel header_error fn m blocks fb O X HM Efb St Nf
    input bits chunk size data xs rest Hend Hfile Hsize Hb Dx.
  destruct (LoadingCases.loaded_parts O (ieee_trig M) (ieee_init M) junk junk_int of_word unknown files hclg why lm_fuel fn m fb St Efb)
    as (rc & ps0 & Eload & Hmade).
  pose proof Hmade as (A0 & _ & _ & _ & _ & _ & A6 & A7 & _ & A9 & _).
  pose proof (network_am_fits O of_word m blocks _ _ _ _ _ rc Nf Hmade) as Af.
  assert (Sup : supported (mk_format 1 16000 bits)).
  { destruct Hsize as (V & _). repeat split; auto. }
  assert (Ff : features_fit O rc 40 (map (f_int O) xs)).
  { apply (audio_features lib M junk junk_int _ rc (Z.to_nat (bits / 8)) xs HM A9); [|apply Dx].
    destruct Hsize as ([-> | [-> | ->]] & _); cbn; lia. }
  destruct (session_fails O X tenth rc (left_context blocks) (right_context blocks) (Z.to_nat (m_chunk m)) 40
    (mk_format 1 16000 bits) xs data rest Ff Af Sup Dx) as (rows & Hrows & H).
  exists rc, rows. split; [exact Hmade|]. split; [exact Hrows|].
  intros cfg fuel d0 d1 e E0 Ei T Ea.
  destruct (H fuel d0 d1 e E0 Ei T Ea []) as (u & Eu & Hs).
  destruct (Program.audio_pieces O X tenth fuel files (fun _ : bytes => Ok (inl rc)) header_error (S (List.length data)) data (le_n _) Hb) as (ps & Pp & Pc & _).
  destruct (Hs ps Pp Pc) as (e1 & Es).
  assert (Hl : stt_load O (ieee_trig M) (ieee_init M) junk junk_int of_word unknown files hclg why lm_fuel fn = Ok (inl rc))
    by (unfold stt_load; rewrite Eload; reflexivity).
  pose proof (Program.main_wav O X tenth fuel files _ header_error fn input rc bits chunk size data [] u [] ps Hl Hend Hfile Hsize Hb Eu Pp Pc) as Ha.
  change (session O X tenth fuel [] (Some u) ps = Fault e1) in Es. rewrite Es in Ha. destruct (run_main _ _ _ _ _ _ _ _) as [[out code]|e2]; [destruct Ha|]. eauto.
Qed.
