(** From recordings to the characters that error rates are computed from. *)
From Coq Require Import ZArith String List Bool Lia.
From Verif.Base Require Import Prelude Lemmas.
From Verif.Spec Require Import AudioSpec AmSpec PcmSpec TextSpec NnetSpec FbankSpec FstSpec DecoderSpec SttSpec TotalSpec SessionSpec LibmSpec ValueSpec LoadingSpec ConstFstSpec GraphModelSpec ProgramSpec EndSpec ListSpec CommandSpec PlainSpec ExpSpec LmPlainSpec CheckedSpec CloseSpec CharTokSpec.
From Verif.Model Require Import Util Arith Pcm Fbank Srfft FbankInit Nnet Pool Fst ConstFst Decoder Stt Main Loading Ieee IeeeFbank.
From Verif.Model Require CharTok.
From Verif.Proof Require Import Whole.
From Verif.Spec Require Import CharactersSpec.
From Verif.Proof Require CharTok CharTokList CharTokUtf8 ExpCases EndCases IeeeCases ConstFstCases ListCases WholeCases WholePrint.
Import ListNotations.
Open Scope Z_scope.

Lemma spelled_list : forall bs, Forall (fun b => exists w, utf8 w b /\ a_word w) bs ->
  exists ws, Forall2 (fun b w => utf8 w b /\ a_word w) bs ws.
Proof.
  induction 1 as [|b bs (w & H) _ (ws & IH)]; [exists []; constructor|]. exists (w :: ws). constructor; auto.
Qed.

Lemma word_pieces : forall ws, Forall a_word ws -> exists ps, pieces ws ps.
Proof.
  intros ws H. apply CharTok.pieces_exist. eapply Forall_impl; [|exact H].
  intros w [A B]. split; [exact A|]. intros c Hc. rewrite <- CharTok.white_space. now apply B.
Qed.

Section Lines.
Variable files : str -> option str.
Variable said : bytes -> bytes -> Prop.
Hypothesis said_words : forall content hyp, said content hyp ->
  exists bs, hyp = join [32] bs /\ Forall (fun b => exists w, utf8 w b /\ a_word w) bs.

Notation line_for := (line_for files said).

Lemma all_lines : forall entries hyps,
  Forall2 (fun e hyp => exists content, files (snd e) = Some content /\ said content hyp) entries hyps ->
  Forall (fun e : bytes * bytes => exists name, utf8 name (Datatypes.fst e) /\ a_word name) entries ->
  exists names namess wordss pss,
    Forall2 (fun (e : bytes * bytes) name => utf8 name (Datatypes.fst e) /\ a_word name) entries names /\
    Forall2 (Forall2 (fun b w => utf8 w b /\ a_word w)) namess wordss /\
    length entries = length namess /\ Forall2 pieces wordss pss /\ hyps = map (join [32]) namess /\
    Forall2 line_for entries (map (fun p => Datatypes.fst p ++ concat (map (fun q => 32 :: q) (snd p))) (combine names pss)).
Proof.
  induction 1 as [|e hyp entries hyps (content & F & Sd) _ IH]; intro Hn.
  - exists [], [], [], []. repeat split; constructor.
  - inversion Hn as [|? ? (name & U & A) Hn']; subst.
    destruct (IH Hn') as (names & namess & wordss & pss & B1 & B2 & B3 & B4 & B5 & B6).
    destruct (said_words _ _ Sd) as (bs & -> & Hb). destruct (spelled_list _ Hb) as (ws & Hw).
    destruct (word_pieces ws) as (ps & Hp).
    { clear - Hw. induction Hw as [|b w bs ws [_ H] _ IH]; constructor; auto. }
    exists (name :: names), (bs :: namess), (ws :: wordss), (ps :: pss).
    split; [constructor; auto|]. split; [constructor; auto|]. split; [exact (f_equal S B3)|].
    split; [constructor; auto|]. split; [exact (f_equal (cons _) B5)|]. cbn [combine map]. constructor; [|exact B6].
    exists content, bs, name, ws, ps. repeat (split; [assumption|]). reflexivity.
Qed.

Lemma printed_characters : forall entries hyps,
  Forall2 (fun e hyp => exists content, files (snd e) = Some content /\ said content hyp) entries hyps ->
  Forall (fun e : bytes * bytes => exists name, utf8 name (Datatypes.fst e) /\ a_word name) entries ->
  exists lines out, Forall2 line_for entries lines /\ utf8 (file_of lines) out /\
    Model.CharTok.conv_file (printed entries hyps) = Some out.
Proof.
  intros entries hyps H Hn. destruct (all_lines _ _ H Hn) as (names & namess & wordss & pss & B1 & B2 & B3 & B4 & -> & B6).
  destruct (CharTokUtf8.list_utf8 _ _ _ _ _ B1 B2 B3 B4) as (out & E & U). eauto.
Qed.
End Lines.

(** The words of the program are in UTF-8. *)
Lemma spoken_in : forall (table : list (bytes * Z)) words names,
  (forall name w, In (name, w) table -> exists u, utf8 u name /\ a_word u) ->
  Forall2 (fun w name => In (name, w) table) words names ->
  Forall (fun b => exists w, utf8 w b /\ a_word w) names.
Proof. intros table words names H F. induction F as [|w n ws ns I _ IH]; constructor; eauto. Qed.

Lemma whole_characters : forall lib M junk junk_int junk_char room tenth of_word unknown files why lm_fuel header_error fn m0 blocks k ls,
  let O := ieee lib in let X := ieee_wide in
  let m := with_graph of_word m0 in let hclg := graph_read junk_char room of_word files in
  libm M -> close_logf M -> sane_log lib -> sane_exp lib ->
  stored_whole O of_word files room fn m0 -> checked_model lib of_word lm_fuel tenth m blocks k ls ->
  (forall name w, In (name, w) (m_words m) -> exists u, utf8 u name /\ a_word u) ->
  exists rc wm, made_of O of_word (ieee_trig M) (ieee_init M) junk junk_int lm_fuel m rc /\ weights_of O of_word m wm /\
  forall input entries,
  ~ ends_in input (lit ".wav") -> 4 <= lenZ input -> files input = Some (list_file entries) -> Forall entry_ok entries ->
  Forall (fun e => exists content, files (snd e) = Some content /\ short_wav m k content) entries ->
  Forall (fun e : bytes * bytes => exists name, utf8 name (Datatypes.fst e) /\ a_word name) entries ->
  exists fuel0 lines out,
    Forall2 (line_for files (heard O X tenth m wm blocks rc)) entries lines /\ utf8 (file_of lines) out /\
    forall fuel, (fuel0 <= fuel)%nat -> exists text,
      run_main O X tenth fuel files
        (stt_load O (ieee_trig M) (ieee_init M) junk junk_int of_word unknown files hclg why lm_fuel) header_error [fn; input]
      = Ok (text, 0) /\ Model.CharTok.conv_file text = Some out.
Proof.
  intros lib M junk junk_int junk_char room tenth of_word unknown files why lm_fuel header_error fn m0 blocks k ls O X m hclg H1 H2 H3 H4 H5 H6 Hw.
  destruct (whole_list lib M junk junk_int junk_char room tenth of_word unknown files why lm_fuel header_error fn m0 blocks k ls H1 H2 H3 H4 H5 H6)
    as (rc & wm & A & B & K).
  exists rc, wm. split; [exact A|]. split; [exact B|]. intros input entries C1 C2 C3 C4 C5 C6.
  destruct (K input entries C1 C2 C3 C4 C5) as (fuel0 & hyps & F & R).
  destruct (printed_characters files (heard O X tenth m wm blocks rc)) with (entries := entries) (hyps := hyps)
    as (lines & out & L & U & E); [|exact F|exact C6|].
  - intros content hyp (rows & words & names & _ & -> & I & _). exists names. split; [reflexivity|].
    exact (spoken_in _ _ _ Hw I).
  - exists fuel0, lines, out. split; [exact L|]. split; [exact U|]. intros fuel Hf.
    exists (printed entries hyps). split; [exact (R fuel Hf)|exact E].
Qed.

Lemma best_characters : forall lib M junk junk_int junk_char room tenth of_word unknown files why lm_fuel header_error fn m0 blocks k ls,
  let O := ieee lib in let X := ieee_wide in
  let m := with_graph of_word m0 in let hclg := graph_read junk_char room of_word files in
  libm M -> close_logf M -> sane_log lib -> sane_exp lib ->
  stored_whole O of_word files room fn m0 -> checked_model lib of_word lm_fuel tenth m blocks k ls ->
  (forall name w, In (name, w) (m_words m) -> exists u, utf8 u name /\ a_word u) ->
  exists rc wm, made_of O of_word (ieee_trig M) (ieee_init M) junk junk_int lm_fuel m rc /\ weights_of O of_word m wm /\
  forall input entries,
  ~ ends_in input (lit ".wav") -> 4 <= lenZ input -> files input = Some (list_file entries) -> Forall entry_ok entries ->
  Forall (fun e => exists content, files (snd e) = Some content /\ short_wav m k content /\ close_wav lib tenth wm blocks rc content) entries ->
  Forall (fun e : bytes * bytes => exists name, utf8 name (Datatypes.fst e) /\ a_word name) entries ->
  exists fuel0 lines out,
    Forall2 (line_for files (heard_best lib tenth m wm blocks rc)) entries lines /\ utf8 (file_of lines) out /\
    forall fuel, (fuel0 <= fuel)%nat -> exists text,
      run_main O X tenth fuel files
        (stt_load O (ieee_trig M) (ieee_init M) junk junk_int of_word unknown files hclg why lm_fuel) header_error [fn; input]
      = Ok (text, 0) /\ Model.CharTok.conv_file text = Some out.
Proof.
  intros lib M junk junk_int junk_char room tenth of_word unknown files why lm_fuel header_error fn m0 blocks k ls O X m hclg H1 H2 H3 H4 H5 H6 Hw.
  destruct (whole_best_list lib M junk junk_int junk_char room tenth of_word unknown files why lm_fuel header_error fn m0 blocks k ls H1 H2 H3 H4 H5 H6)
    as (rc & wm & A & B & K).
  exists rc, wm. split; [exact A|]. split; [exact B|]. intros input entries C1 C2 C3 C4 C5 C6.
  destruct (K input entries C1 C2 C3 C4 C5) as (fuel0 & hyps & F & R).
  destruct (printed_characters files (heard_best lib tenth m wm blocks rc)) with (entries := entries) (hyps := hyps)
    as (lines & out & L & U & E); [|exact F|exact C6|].
  - intros content hyp (rows & words & names & _ & -> & I & _). exists names. split; [reflexivity|].
    exact (spoken_in _ _ _ Hw I).
  - exists fuel0, lines, out. split; [exact L|]. split; [exact U|]. intros fuel Hf.
    exists (printed entries hyps). split; [exact (R fuel Hf)|exact E].
Qed.

(** * A case *)

Lemma ascii_utf8 : forall s, forallb (fun c => (0 <=? c) && (c <? 128)) s = true -> utf8 s s.
Proof.
  induction s as [|c s IH]; intro H; [constructor|]. cbn in H. apply andb_true_iff in H as [H Hs].
  apply (utf8_cons c [c]); [|auto]. apply andb_true_iff in H as [A B]. apply utf8_1. lia.
Qed.

Lemma ascii_word_ok : forall s, s <> [] -> forallb (fun c => (0 <=? c) && (c <? 128) && negb (white c)) s = true ->
  exists u, utf8 u s /\ a_word u.
Proof.
  intros s Hs H. exists s. rewrite forallb_forall in H. split.
  - apply ascii_utf8, forallb_forall. intros c Hc. specialize (H c Hc). rewrite andb_true_iff in H. apply H.
  - split; [exact Hs|]. intros c Hc. specialize (H c Hc). rewrite andb_true_iff, negb_true_iff in H. apply H.
Qed.

Lemma words22 : forall name w, In (name, w) (m_words (with_graph EndCases.bits32 WholeCases.model22)) -> exists u, utf8 u name /\ a_word u.
Proof.
  intros name w H. cbn in H.
  repeat (destruct H as [H|H]; [injection H as <- _; apply ascii_word_ok; [discriminate|reflexivity]|]). destruct H.
Qed.

Lemma names22 : Forall (fun e : bytes * bytes => exists name, utf8 name (Datatypes.fst e) /\ a_word name) ListCases.entries13.
Proof. repeat constructor; apply ascii_word_ok; try discriminate; reflexivity. Qed.

Lemma characters22 : forall M junk junk_int junk_char unknown why lm_fuel header_error, libm M -> close_logf M ->
  exists fuel0, forall fuel, (fuel0 <= fuel)%nat -> exists text,
    run_main (ieee ExpCases.loud) ieee_wide (IeeeCases.tenth 1) fuel WholeCases.files22
      (stt_load (ieee ExpCases.loud) (ieee_trig M) (ieee_init M) junk junk_int EndCases.bits32 unknown WholeCases.files22
         (graph_read junk_char ConstFstCases.plenty EndCases.bits32 WholeCases.files22) why lm_fuel)
      header_error [lit "d/m"; lit "l.scp"]
    = Ok (text, 0) /\
    Model.CharTok.conv_file text = Some (lit "v1 s o w h a t" ++ [10] ++ lit "v2 s o w h a t" ++ [10]).
Proof.
  intros M junk junk_int junk_char unknown why lm_fuel header_error HM HC.
  destruct (WholePrint.prints22 M junk junk_int junk_char unknown why lm_fuel header_error HM HC) as (fuel0 & R).
  exists fuel0. intros fuel Hf. eexists. split; [exact (R fuel Hf)|]. vm_compute. reflexivity.
Qed.
