(** What the program prints, from a run of the decoder: also when collections
    free words in use. *)
From Coq Require Import ZArith String List Bool Lia.
From Verif.Base Require Import Prelude ZMap Lemmas.
From Verif.Spec Require Import AudioSpec AmSpec FbankSpec PcmSpec TextSpec NnetSpec DecoderSpec SttSpec TotalSpec SessionSpec LibmSpec LoadingSpec ProgramSpec EndSpec.
From Verif.Model Require Import Util File Arith Vector Pcm Fbank Srfft FbankInit Am SymbolTable Pool OLabel Fst Decoder Stt Main Loading Ieee IeeeFbank.
From Verif.Proof Require Import Loop Stt SttCut SttTotal FiniteCases EndToEnd.
From Verif.Proof Require Pcm PcmCases LoadingCases Program.
Import ListNotations.
Open Scope Z_scope.

Section Direct.
Context {F D C : Type} (O : fops F) (X : xops F D).

(** Every frame succeeds, and the words of the hypotheses that are looked at on
    the way are [known]. *)
Fixpoint told (cfg : config F C) (known : Z -> bool) (fuel : nat) (d : decoder F C) (rows : list (list F)) : bool :=
  match rows with
  | [] => true
  | logp :: rows =>
      match process O X cfg collector fuel d logp with
      | Ok (d, true) =>
          (if Z.rem (d_frames d) 20 =? 0 then
             match best_path O X cfg d with Ok (ws, _) => forallb known ws | Fault _ => false end
           else true) && told cfg known fuel d rows
      | _ => false
      end
  end.

Lemma told_app : forall cfg known fuel a b d, told cfg known fuel d (a ++ b) = true -> told cfg known fuel d a = true.
Proof.
  intros cfg known fuel a b. induction a as [|logp a IH]; intros d H; [reflexivity|]. cbn [app told] in *.
  destruct (process O X cfg collector fuel d logp) as [[d1 [|]]|]; try discriminate H.
  apply andb_true_iff in H. destruct H as (H1 & H2). rewrite H1. cbn [andb]. now apply IH.
Qed.

Variables (tenth : F) (rc : recognizer F C).
Notation cfg := (utt_config O tenth rc).

Lemma told_rows : forall known fuel rows d d' out,
  (forall x, known x = true -> exists name, sym_get (rc_symbols rc) x = Ok name) ->
  told cfg known fuel d rows = true -> process_all O X cfg collector fuel d rows = Ok (d', true) ->
  exists out', for_each rows (decode_row O X tenth fuel rc) (d, out) = Ok (d', out').
Proof.
  intros known fuel rows d d' out Hk. revert d out. induction rows as [|logp rows IH]; intros d out T E.
  - cbn in E. injection E as <-. exists out. reflexivity.
  - cbn [told process_all] in *. destruct (process O X cfg collector fuel d logp) as [[d1 [|]]|] eqn:E1; try discriminate T.
    cbn [bind] in E. apply andb_true_iff in T. destruct T as (T1 & T2). cbn [for_each].
    assert (Ho : exists out1, decode_row O X tenth fuel rc (d, out) logp = Ok (d1, out1)).
    { unfold decode_row. change (ogc label_block) with collector. rewrite E1. cbn [bind].
      destruct (Z.rem (d_frames d1) 20 =? 0); [|cbn [bind]; eauto].
      destruct (best_path O X cfg d1) as [[ws w]|] eqn:Eb; [|discriminate T1].
      destruct (store_total O X tenth rc d1 out ws w Eb) as (hyp & Es & _).
      - intros x J. apply Hk. rewrite forallb_forall in T1. auto.
      - rewrite Es. cbn [bind]. eauto. }
    destruct Ho as (out1 & Ho). rewrite Ho. cbn [bind]. now apply IH.
Qed.

Lemma session_direct : forall L R c dim f xs stream rest,
  features_fit O rc dim (map (f_int O) xs) -> am_fits rc L R c dim -> supported f ->
  AudioSpec.decodes (Z.to_nat (w_bits f / 8)) stream xs rest ->
  exists rows, rows_of O rc L R (map (f_int O) xs) rows /\
  forall known fuel d0 d1 d words weight,
  (forall x, known x = true -> exists name, sym_get (rc_symbols rc) x = Ok name) ->
  new_decoder (rc_cache rc) = Ok d0 -> initialize O X cfg fuel d0 = Ok d1 -> told cfg known fuel d1 rows = true ->
  process_all O X cfg collector fuel d1 rows = Ok (d, true) ->
  best_path O X cfg (end_of_stream d) = Ok (words, weight) -> forallb known words = true ->
  exists text, spells (rc_symbols rc) (rev words) text /\
  forall err, exists u, utt_init O X tenth fuel err rc f = Ok (Some u, err) /\
    forall ps, Forall piece ps -> concat ps = stream ->
    exists ns ll, session O X tenth fuel err (Some u) ps = Ok (ns, text, ll).
Proof.
  intros L R c dim f xs stream rest Fs Af Sf Dx.
  destruct (rows_ok O rc L R c dim (map (f_int O) xs) Fs Af) as (feats & outs & a & rest' & a' & Hf & Er & Ee & Hr).
  set (rows := concat outs ++ rest') in *. exists rows. split; [exact Hr|].
  intros known fuel d0 d1 d words weight Hk E0 Ei T Ea Eb Kw.
  assert (Hn : forall x, In x words -> exists name, sym_get (rc_symbols rc) x = Ok name).
  { intros x J. apply Hk. rewrite forallb_forall in Kw. auto. }
  destruct (store_total O X tenth rc (end_of_stream d) ([0], f_zero O) words weight Eb Hn) as (text & _ & St).
  exists text. split; [exact St|]. intros err. eexists. split.
  { unfold utt_init. rewrite E0. cbn [bind]. rewrite Ei. cbn [bind].
    destruct (PcmCases.set_format_cases reader_init f) as [[Q1 Q2]|[Q1 Q2]]; [rewrite Q2|contradiction]. reflexivity. }
  intros ps Hps Ec.
  destruct f as [ch rate bits]. destruct Sf as (S3 & S4 & S5). cbn [w_channels w_rate w_bits] in *. subst ch rate. unfold valid_width in S5.
  destruct (session_whole O X tenth fuel any (fun _ => Logic.I) bits rc ps err d1 S5 Hps (or_introl (fun _ _ => Logic.I))) as (ys & r2 & D2 & A2).
  assert (Ew : Z.to_nat (bits / 8) = Verif.Proof.Pcm.width bits) by (destruct S5 as [-> | [-> | ->]]; reflexivity). rewrite Ew in Dx.
  assert (P : (0 < Verif.Proof.Pcm.width bits)%nat) by (destruct S5 as [-> | [-> | ->]]; cbv; lia).
  assert (ys = xs) as ->.
  { destruct Dx as (Q1 & F1' & L1), D2 as (Q2 & F2' & L2).
    apply (decodes_unique (Verif.Proof.Pcm.width bits) P ys xs r2 rest); auto. congruence. }
  destruct (process_all_app O X tenth rc fuel (concat outs) rest' d1 d Ea) as (dm & Em & Er' & _).
  destruct (told_rows known fuel (concat outs) d1 dm ([0], f_zero O) Hk (told_app _ _ _ _ _ _ T) Em) as ([h ll] & Eo).
  destruct (store_total O X tenth rc (end_of_stream d) (h, ll) words weight Eb Hn) as (text' & Es & St').
  assert (text' = text) as -> by (eapply spells_unique; eauto).
  set (ll' := if words then ll else f_div O weight (f_int O (d_frames (end_of_stream d)))).
  assert (Ewh : whole O X tenth fuel rc d1 xs = Ok (text, ll')).
  { unfold whole. pose proof (decode_windows_ok O X tenth rc fuel _ _ _ _ _ (d1, ([0], f_zero O)) _ Hf Er Eo) as Ed.
    match goal with |- context [for_each ?l ?g ?t] => assert (Ed' : for_each l g t = Ok (a, (dm, (h, ll)))) by exact Ed; rewrite Ed' end.
    cbn [bind]. rewrite Ee. cbn [bind]. rewrite (process_rows O X tenth rc _ _ _ _ Er'). cbn [bind]. exact Es. }
  rewrite Ewh in A2. unfold alike in A2. clear Ewh.
  match type of A2 with match ?m with _ => _ end => destruct m as [[[ns txt] l]|] eqn:Esn; [|contradiction] end.
  destruct A2 as (T1 & T2 & T3). cbn [Datatypes.fst snd] in *. injection T3 as -> ->.
  exists ns, ll'. exact Esn.
Qed.
End Direct.

Lemma files_direct : forall lib M junk junk_int tenth of_word unknown files hclg why lm_fuel header_error fn m blocks fb,
  let O := ieee lib in let X := ieee_wide in
  libm M -> fbank_new O (ieee_trig M) (ieee_init M) junk junk_int = Ok fb ->
  stored O of_word files hclg fn m -> network_fits m blocks ->
  forall input bits chunk size data xs rest,
  ends_in input (lit ".wav") -> files input = Some (wav bits chunk size data) -> wav_sizes bits chunk size -> byte_list data ->
  AudioSpec.decodes (Z.to_nat (bits / 8)) data xs rest ->
  exists rc rows,
    made_of O of_word (ieee_trig M) (ieee_init M) junk junk_int lm_fuel m rc /\
    rows_of O rc (left_context blocks) (right_context blocks) (map (f_int O) xs) rows /\
  let cfg := utt_config O tenth rc in
  forall known fuel d0 d1 d words weight,
  (forall x, known x = true -> exists name, In (name, x) (m_words m)) ->
  new_decoder (rc_cache rc) = Ok d0 -> initialize O X cfg fuel d0 = Ok d1 -> told O X cfg known fuel d1 rows = true ->
  process_all O X cfg collector fuel d1 rows = Ok (d, true) ->
  best_path O X cfg (end_of_stream d) = Ok (words, weight) -> forallb known words = true ->
  forall names, Forall2 (fun w name => In (name, w) (m_words m)) (rev words) names ->
    run_main O X tenth fuel files
      (stt_load O (ieee_trig M) (ieee_init M) junk junk_int of_word unknown files hclg why lm_fuel) header_error [fn; input]
    = Ok (join [32] names ++ [10], 0).
Proof.
  intros lib M junk junk_int tenth of_word unknown files hclg why lm_fuel header_error fn m blocks fb O X HM Efb St Nf
    input bits chunk size data xs rest Hend Hfile Hsize Hb Dx.
  destruct (LoadingCases.loaded_parts O (ieee_trig M) (ieee_init M) junk junk_int of_word unknown files hclg why lm_fuel fn m fb St Efb)
    as (rc & ps0 & Eload & Hmade).
  pose proof Hmade as (A0 & _ & _ & _ & _ & _ & A6 & A7 & _ & A9 & _).
  pose proof (network_am_fits O of_word m blocks _ _ _ _ _ rc Nf Hmade) as Af.
  assert (Sup : supported (mk_format 1 16000 bits)).
  { destruct Hsize as (V & _). repeat split; auto. }
  assert (Ff : features_fit O rc 40 (map (f_int O) xs)).
  { apply (audio_features lib M junk junk_int _ rc (Z.to_nat (bits / 8)) xs HM A9); [|apply Dx].
    destruct Hsize as ([-> | [-> | ->]] & _); cbn; lia. }
  destruct (session_direct O X tenth rc (left_context blocks) (right_context blocks) (Z.to_nat (m_chunk m)) 40
    (mk_format 1 16000 bits) xs data rest Ff Af Sup Dx) as (rows & Hrows & H).
  exists rc, rows. split; [exact Hmade|]. split; [exact Hrows|].
  intros cfg known fuel d0 d1 d words weight Hk E0 Ei T Ea Eb Kw names Hnames.
  assert (Hk' : forall x, known x = true -> exists name, sym_get (rc_symbols rc) x = Ok name).
  { intros x Kx. destruct (Hk x Kx) as (name & J). exists name. apply (A7 _ _ J). }
  destruct (H known fuel d0 d1 d words weight Hk' E0 Ei T Ea Eb Kw) as (mem & Sp & Hu).
  destruct (Stt.spells_cstr _ _ _ Sp) as (names' & Hn & Ecs & _).
  assert (names' = names) as ->.
  { clear - Hn Hnames A7. revert names' Hn. induction Hnames as [|w n ws ns J _ IH]; intros names' Hn; inversion Hn as [|? n' ? ns' G Hn']; subst; [reflexivity|].
    f_equal; [|now apply IH]. destruct (A7 _ _ J) as (G' & _). rewrite G in G'. congruence. }
  destruct (Hu []) as (u & Eu & Hs).
  destruct (Program.audio_pieces O X tenth fuel files (fun _ : bytes => Ok (inl rc)) header_error (S (List.length data)) data (le_n _) Hb) as (ps & Pp & Pc & _).
  destruct (Hs ps Pp Pc) as (ns & ll & Es).
  assert (Hl : stt_load O (ieee_trig M) (ieee_init M) junk junk_int of_word unknown files hclg why lm_fuel fn = Ok (inl rc))
    by (unfold stt_load; rewrite Eload; reflexivity).
  pose proof (Program.main_wav O X tenth fuel files _ header_error fn input rc bits chunk size data [] u [] ps Hl Hend Hfile Hsize Hb Eu Pp Pc) as Ha.
  change (session O X tenth fuel [] (Some u) ps = Ok (ns, mem, ll)) in Es. rewrite Es in Ha. destruct (run_main _ _ _ _ _ _ _ _) as [[out code]|]; [|destruct Ha].
  destruct Ha as (-> & ->). rewrite Ecs. reflexivity.
Qed.
