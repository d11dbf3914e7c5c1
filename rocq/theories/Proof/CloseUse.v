(** From files to the text of the best path. *)
From Coq Require Import ZArith String List Bool Lia.
From Verif.Base Require Import Prelude Lemmas.
From Verif.Spec Require Import AudioSpec AmSpec FbankSpec PcmSpec TextSpec NnetSpec AmTextSpec FstSpec DecoderSpec SttSpec TotalSpec SessionSpec LibmSpec ValueSpec LoadingSpec ProgramSpec EndSpec ListSpec ExpSpec CloseSpec.
From Verif.Model Require Import Util File Arith Vector Pcm Fbank Srfft FbankInit Nnet Am SymbolTable Pool Fst Decoder Stt Main Loading Ieee IeeeFbank.
From Verif.Proof Require Import Loop IeeeLaws TotalCases FiniteCases EndToEnd CloseCosts.
From Verif.Proof Require LoadingCases Program Stt DecoderMain Ieee MelClose.
Import ListNotations.
Open Scope Z_scope.

Lemma best_transcript : forall lib M junk junk_int tenth of_word lm_fuel m blocks rc,
  let O := ieee lib in let X := ieee_wide in
  libm M -> made_of O of_word (ieee_trig M) (ieee_init M) junk junk_int lm_fuel m rc -> network_fits m blocks ->
  forall wm good, model_words O of_word lm_fuel m wm good ->
  forall content, decodable O X tenth m wm good blocks rc content -> close_wav lib tenth wm blocks rc content ->
  exists hyp fuel0, heard_best lib tenth m wm blocks rc content hyp /\
    forall fuel, (fuel0 <= fuel)%nat -> transcript O X tenth fuel rc content hyp.
Proof.
  intros lib M junk junk_int tenth of_word lm_fuel m blocks rc O X HM Hmade Nf wm good Mw content
    ((bits & chunk & size & data & xs & rest & Ec & Hsize & Hbc & Dx) & Hall) Cw.
  pose proof Hmade as (A0 & _ & _ & _ & _ & _ & A6 & A7 & _ & A9 & _).
  pose proof (network_am_fits O of_word m blocks _ _ _ _ _ rc Nf Hmade) as Af.
  destruct (model_lm _ O of_word lm_fuel m _ _ _ _ rc wm good Hmade Mw) as (Hlm & Hgood).
  assert (Sup : supported (mk_format 1 16000 bits)).
  { destruct Hsize as (V & _). repeat split; auto. }
  destruct (session_audio lib M junk junk_int _ tenth rc wm good HM A9 Hlm (left_context blocks) (right_context blocks)
    (Z.to_nat (m_chunk m)) (mk_format 1 16000 bits) xs data rest Af Sup Dx) as (rows & Hrows & H).
  assert (Wr : wav_rows O blocks rc content rows) by (exists bits, chunk, size, data, xs, rest; auto 6).
  destruct (Hall rows Wr) as (states & Rf & Rs & Li & Fc & Br & En & Ls). set (cfg := utt_config O tenth rc) in *.
  assert (Nm : named rc states).
  { intros s a J Ha NZ. rewrite A0 in Ha. destruct (Ls s a J Ha NZ) as (name & Jn). exists name. apply (A7 _ _ Jn). }
  destruct (H states Hgood Rf Rs Li Fc Br En Nm) as (fuel0 & dec & words & weight & mem & Eb & Sp & Hf).
  destruct (Stt.spells_cstr _ _ _ Sp) as (names & Hn & Ecs & _).
  destruct (Hf fuel0 [] (le_n _)) as (Dec0 & _).
  pose proof (close_hypothesis lib cfg wm good Hlm eq_refl fuel0 (rc_cache rc) rows dec Hgood (Cw rows Wr) (Rs fuel0) Dec0 true words weight Eb) as Hp.
  assert (Hbest : cheapest lib (m_graph m) (m_tid2pdf m) tenth wm rows (rev words)).
  { unfold cfg, utt_config, new_config in Hp. cbn [c_graph c_pdf c_scale] in Hp. rewrite A0, A6 in Hp. unfold cheapest.
    destruct Hp as [(-> & _ & H0)|(s & c & total & P & E & Ni & H0)]; [left; split; [reflexivity|exact H0]|right; exists s, c, total; auto]. }
  assert (Hpath : rev words = [] \/ exists s c total,
       path O X (m_graph m) (m_tid2pdf m) tenth wm (rev rows) s c (rev words) /\
       ending X (m_graph m) wm true s c total /\ x_is_inf X total = false).
  { destruct Hbest as [(-> & _)|(s & c & total & P & E & Ni & _)]; [now left|]. right. exists s, c, total. auto. }
  exists (join [32] names), fuel0. split.
  - exists rows, (rev words), names. split; [exact Wr|]. split; [reflexivity|]. split; [|exact Hbest].
    assert (Hl : forall x, In x (rev words) -> exists name, In (name, x) (m_words m)).
    { destruct Hpath as [-> |(s & c & total & P & _)]; [intros x []|].
      refine (proj2 (path_words _ _ _ O X cfg wm good states rows _ Rf _ (rev rows) s c _ _ _)).
      - intros s0 a J Ha NZ. apply (Ls s0 a J); [|exact NZ]. rewrite <- A0. exact Ha.
      - unfold cfg, utt_config, new_config. cbn [c_graph c_pdf c_scale]. rewrite A0, A6. exact P.
      - intros x J. now apply in_rev. }
    clear - Hn Hl A7. induction Hn as [|x name xs names Hx _ IH]; constructor.
    + destruct (Hl x (or_introl eq_refl)) as (name' & J). destruct (A7 _ _ J) as (G & _). rewrite Hx in G. injection G as <-. exact J.
    + apply IH. intros y J. apply Hl. now right.
  - intros fuel Hfuel. destruct (Hf fuel [] Hfuel) as (_ & u & Eu & Hu).
    assert (Hb : byte_list data) by (rewrite Ec in Hbc; unfold wav, byte_list in Hbc; apply Forall_app in Hbc; tauto).
    destruct (Program.audio_pieces O X tenth fuel (fun _ : bytes => None) (fun _ : bytes => Ok (inl rc)) (fun x => x) (S (List.length data)) data (le_n _) Hb) as (ps & Pp & Pc & _).
    destruct (Hu ps Pp Pc) as (ns & ll & Es & _).
    exists bits, chunk, size, data, ps, [], u, ns, mem, ll. split; [exact Ec|]. split; [exact Hsize|]. split; [exact Eu|].
    split; [exact Pp|]. split; [exact Pc|]. split; [exact Es|]. symmetry. exact Ecs.
Qed.

Lemma best_list : forall lib M junk junk_int tenth of_word unknown files hclg why lm_fuel header_error fn m blocks,
  let O := ieee lib in let X := ieee_wide in
  libm M -> close_logf M -> stored O of_word files hclg fn m -> network_fits m blocks ->
  forall wm good, model_words O of_word lm_fuel m wm good ->
  exists rc, made_of O of_word (ieee_trig M) (ieee_init M) junk junk_int lm_fuel m rc /\
  forall input entries,
  ~ ends_in input (lit ".wav") -> 4 <= lenZ input -> files input = Some (list_file entries) -> Forall entry_ok entries ->
  Forall (fun e => exists content, files (snd e) = Some content /\ decodable O X tenth m wm good blocks rc content /\ close_wav lib tenth wm blocks rc content) entries ->
  exists fuel0 hyps,
    Forall2 (fun e hyp => exists content, files (snd e) = Some content /\ heard_best lib tenth m wm blocks rc content hyp) entries hyps /\
    forall fuel, (fuel0 <= fuel)%nat ->
      run_main O X tenth fuel files
        (stt_load O (ieee_trig M) (ieee_init M) junk junk_int of_word unknown files hclg why lm_fuel) header_error [fn; input]
      = Ok (printed entries hyps, 0).
Proof.
  intros lib M junk junk_int tenth of_word unknown files hclg why lm_fuel header_error fn m blocks O X HM HC St Nf wm good Mw.
  destruct (MelClose.extractor_built lib M HC junk junk_int) as (fb & Efb).
  destruct (LoadingCases.loaded_parts O (ieee_trig M) (ieee_init M) junk junk_int of_word unknown files hclg why lm_fuel fn m fb St Efb)
    as (rc & ps0 & Eload & Hmade).
  exists rc. split; [exact Hmade|]. intros input entries Nw L4 Hfile Hok Hdec.
  assert (K : exists fuel0 hyps, Forall2 (fun e hyp => exists content, files (snd e) = Some content /\ heard_best lib tenth m wm blocks rc content hyp) entries hyps /\
     forall fuel, (fuel0 <= fuel)%nat -> Forall2 (ready_entry O X tenth fuel files rc) entries hyps).
  { clear - HM Hmade Nf Mw Hdec. induction Hdec as [|e es (content & Ef & Dc & Cw) _ (n & hs & IH1 & IH2)].
    - exists 0%nat, []. split; [constructor|]. intros. constructor.
    - destruct (best_transcript lib M junk junk_int tenth of_word lm_fuel m blocks rc HM Hmade Nf wm good Mw content Dc Cw) as (h & n' & Hh & Ht).
      exists (Nat.max n' n), (h :: hs). split; [constructor; [exists content; auto|exact IH1]|].
      intros fuel Hf. constructor; [|apply IH2; lia]. exists content. split; [exact Ef|]. split; [|apply Ht; lia].
      destruct Dc as ((? & ? & ? & ? & ? & ? & _ & _ & B & _) & _). exact B. }
  destruct K as (fuel0 & hyps & K1 & K2). exists fuel0, hyps. split; [exact K1|]. intros fuel Hf.
  assert (Hl : stt_load O (ieee_trig M) (ieee_init M) junk junk_int of_word unknown files hclg why lm_fuel fn = Ok (inl rc))
    by (unfold stt_load; rewrite Eload; reflexivity).
  exact (Program.main_list O X tenth fuel files _ header_error fn input rc entries hyps Hl Nw L4 Hfile Hok (K2 fuel Hf)).
Qed.

Lemma best_file : forall lib M junk junk_int tenth of_word unknown files hclg why lm_fuel header_error fn m blocks,
  let O := ieee lib in let X := ieee_wide in
  libm M -> close_logf M -> stored O of_word files hclg fn m -> network_fits m blocks ->
  forall wm good, model_words O of_word lm_fuel m wm good ->
  exists rc, made_of O of_word (ieee_trig M) (ieee_init M) junk junk_int lm_fuel m rc /\
  forall input content, ends_in input (lit ".wav") -> files input = Some content ->
  decodable O X tenth m wm good blocks rc content -> close_wav lib tenth wm blocks rc content ->
  exists fuel0 hyp, heard_best lib tenth m wm blocks rc content hyp /\
    forall fuel, (fuel0 <= fuel)%nat ->
      run_main O X tenth fuel files
        (stt_load O (ieee_trig M) (ieee_init M) junk junk_int of_word unknown files hclg why lm_fuel) header_error [fn; input]
      = Ok (hyp ++ [10], 0).
Proof.
  intros lib M junk junk_int tenth of_word unknown files hclg why lm_fuel header_error fn m blocks O X HM HC St Nf wm good Mw.
  destruct (MelClose.extractor_built lib M HC junk junk_int) as (fb & Efb).
  destruct (LoadingCases.loaded_parts O (ieee_trig M) (ieee_init M) junk junk_int of_word unknown files hclg why lm_fuel fn m fb St Efb)
    as (rc & ps0 & Eload & Hmade).
  exists rc. split; [exact Hmade|]. intros input content Hi Hfile Dc Cw.
  destruct (best_transcript lib M junk junk_int tenth of_word lm_fuel m blocks rc HM Hmade Nf wm good Mw content Dc Cw) as (h & n & Hh & Ht).
  exists n, h. split; [exact Hh|]. intros fuel Hf.
  assert (Hl : stt_load O (ieee_trig M) (ieee_init M) junk junk_int of_word unknown files hclg why lm_fuel fn = Ok (inl rc))
    by (unfold stt_load; rewrite Eload; reflexivity).
  apply (Program.main_transcript O X tenth fuel files _ header_error fn input rc content h Hl Hi Hfile); [|exact (Ht fuel Hf)].
  destruct Dc as ((? & ? & ? & ? & ? & ? & _ & _ & B & _) & _). exact B.
Qed.
