(** Checked models of two words all of whose parts are in files, with and without
    a language model. *)
From Coq Require Import ZArith String List Bool Lia.
From Verif.Base Require Import Prelude Lemmas.
From Verif.Model Require Import Util File Arith Pcm Fbank Srfft FbankInit Nnet Am Pool SymbolTable Fst ConstFst Decoder Stt Main Loading Ieee IeeeFbank.
From Verif.Spec Require Import AudioSpec PcmSpec TextSpec NnetSpec FbankSpec FstSpec DecoderSpec SttSpec LibmSpec ValueSpec LoadingSpec ConstFstSpec GraphModelSpec ProgramSpec EndSpec ListSpec CommandSpec PlainSpec ExpSpec LmPlainSpec CheckedSpec CloseSpec.
From Verif.Proof Require Import TotalCases EndCases ExpCases LmCases CheckedCases CloseCheckedCases.
From Verif.Proof Require Import ConstFstCases Whole.
From Verif.Proof Require ListCases Lines.
Import ListNotations.
Open Scope Z_scope.

Definition model21 : model (transducer Z) :=
  mk_model graph14 (layers17 mild_word) [1065353216; 1065353216] 1 1 2 2 [0; 0; 1] words11 9 8 (Some (costs18, lm18)).
Definition model22 : model (transducer Z) :=
  mk_model graph14 (layers17 mild_word) [1065353216; 1065353216] 1 1 2 2 [0; 0; 1] words11 9 8 None.
Definition files21 (name : str) : option str := if str_eqb name (lit "d/g") then Some full14 else files19 name.
Definition files22 (name : str) : option str := if str_eqb name (lit "d/g") then Some full14 else files20 name.

Lemma meant21 : with_graph bits32 model21 = model19.
Proof. unfold with_graph, model21, model19. cbn [m_graph m_layers m_prior m_left m_right m_chunk m_pdfs m_tid2pdf m_words m_bos m_eos m_lm]. now rewrite graph14_meant. Qed.
Lemma meant22 : with_graph bits32 model22 = model20.
Proof. unfold with_graph, model22, model20. cbn [m_graph m_layers m_prior m_left m_right m_chunk m_pdfs m_tid2pdf m_words m_bos m_eos m_lm]. now rewrite graph14_meant. Qed.

Lemma add_graph : forall files, files (lit "d/g") = None ->
  forall p c, files p = Some c -> (if str_eqb p (lit "d/g") then Some full14 else files p) = Some c.
Proof.
  intros files N p c E. destruct (str_eqb p (lit "d/g")) eqn:E1; [|exact E]. apply Lines.str_eqb_eq in E1. subst p. congruence.
Qed.

Lemma stored21 : stored_whole (ieee loud) bits32 files21 plenty (lit "d/m") model21.
Proof.
  destruct stored19 as (content & lines & Fc & Cl & (p & Pp & Hp') & Hn & Hp & H1 & H2 & H3 & H4 & Ht & Hs & Hl).
  assert (Ep : p = lit "d/g").
  { unfold hclg11 in Hp'. destruct (str_eqb p (lit "d/g")) eqn:E; [apply Lines.str_eqb_eq; exact E|discriminate Hp']. }
  pose proof (add_graph files19 eq_refl : forall p c, files19 p = Some c -> files21 p = Some c) as K.
  assert (S : forall k good, stored_at files19 (lit "d/m") lines k good -> stored_at files21 (lit "d/m") lines k good).
  { intros k good (q & c & P1 & P2 & P3). exists q, c. auto. }
  exists content, lines. split; [now apply K|]. split; [exact Cl|].
  split; [exists p; split; [exact Pp|]; subst p; exists full14, tables14, [1; 2]; split; [reflexivity|]; split; [exact full14_file|]; split; [exact stands14|exact memory14]|].
  split; [now apply S|]. split; [now apply S|]. split; [exact H1|]. split; [exact H2|]. split; [exact H3|]. split; [exact H4|].
  split; [now apply S|]. split; [now apply S|]. cbn [m_lm model19] in Hl. destruct Hl as (L1 & L2). cbn [m_lm model21]. split; now apply S.
Qed.

Lemma stored22 : stored_whole (ieee loud) bits32 files22 plenty (lit "d/m") model22.
Proof.
  destruct stored20 as (content & lines & Fc & Cl & (p & Pp & Hp') & Hn & Hp & H1 & H2 & H3 & H4 & Ht & Hs & Hl).
  assert (Ep : p = lit "d/g").
  { unfold hclg11 in Hp'. destruct (str_eqb p (lit "d/g")) eqn:E; [apply Lines.str_eqb_eq; exact E|discriminate Hp']. }
  pose proof (add_graph files20 eq_refl : forall p c, files20 p = Some c -> files22 p = Some c) as K.
  assert (S : forall k good, stored_at files20 (lit "d/m") lines k good -> stored_at files22 (lit "d/m") lines k good).
  { intros k good (q & c & P1 & P2 & P3). exists q, c. auto. }
  exists content, lines. split; [now apply K|]. split; [exact Cl|].
  split; [exists p; split; [exact Pp|]; subst p; exists full14, tables14, [1; 2]; split; [reflexivity|]; split; [exact full14_file|]; split; [exact stands14|exact memory14]|].
  split; [now apply S|]. split; [now apply S|]. split; [exact H1|]. split; [exact H2|]. split; [exact H3|]. split; [exact H4|].
  split; [now apply S|]. split; [now apply S|]. exact Hl.
Qed.

Lemma checked21 : forall lm_fuel, (4 <= lm_fuel)%nat ->
  checked_model loud bits32 lm_fuel (IeeeCases.tenth 1) (with_graph bits32 model21) (blocks17 mild_word) 1 before17.
Proof. rewrite meant21. exact checked19. Qed.
Lemma checked22 : forall lm_fuel,
  checked_model loud bits32 lm_fuel (IeeeCases.tenth 1) (with_graph bits32 model22) (blocks17 mild_word) 1 before17.
Proof. rewrite meant22. exact checked20. Qed.

Lemma list21 : ~ ends_in (lit "l.scp") (lit ".wav") /\ 4 <= lenZ (lit "l.scp") /\ files21 (lit "l.scp") = Some (list_file entries19) /\
  Forall ProgramSpec.entry_ok entries19 /\
  Forall (fun e => exists content, files21 (snd e) = Some content /\ short_wav (with_graph bits32 model21) 1 content) entries19.
Proof.
  destruct list19 as (A1 & A2 & A3 & A4 & A5). rewrite meant21. repeat (split; [assumption|]).
  eapply Forall_impl; [|exact A5]. intros e (c & E & S). exists c. split; [|exact S]. exact (add_graph files19 eq_refl _ _ E).
Qed.

Lemma list22 : ~ ends_in (lit "l.scp") (lit ".wav") /\ 4 <= lenZ (lit "l.scp") /\ files22 (lit "l.scp") = Some (list_file ListCases.entries13) /\
  Forall ProgramSpec.entry_ok ListCases.entries13 /\
  forall M junk junk_int lm_fuel rc wm, libm M ->
  made_of (ieee loud) bits32 (ieee_trig M) (ieee_init M) junk junk_int lm_fuel (with_graph bits32 model22) rc ->
  weights_of (ieee loud) bits32 (with_graph bits32 model22) wm ->
  Forall (fun e => exists content, files22 (snd e) = Some content /\ short_wav (with_graph bits32 model22) 1 content /\
    close_wav loud (IeeeCases.tenth 1) wm (blocks17 mild_word) rc content) ListCases.entries13.
Proof.
  destruct list20 as (A1 & A2 & A3 & A4 & A5). rewrite meant22. repeat (split; [assumption|]).
  intros M junk junk_int lm_fuel rc wm HM Hm Hw.
  eapply Forall_impl; [|exact (A5 M junk junk_int lm_fuel rc wm HM Hm Hw)].
  intros e (c & E & S). exists c. split; [|exact S]. exact (add_graph files20 eq_refl _ _ E).
Qed.

(** What is printed with these files. *)
Lemma prints21 : forall M junk junk_int junk_char unknown why lm_fuel header_error, libm M -> close_logf M -> (4 <= lm_fuel)%nat ->
  exists fuel0 h1 h2 h3, forall fuel, (fuel0 <= fuel)%nat ->
    run_main (ieee loud) ieee_wide (IeeeCases.tenth 1) fuel files21
      (stt_load (ieee loud) (ieee_trig M) (ieee_init M) junk junk_int bits32 unknown files21 (graph_read junk_char plenty bits32 files21) why lm_fuel)
      header_error [lit "d/m"; lit "l.scp"]
    = Ok (lit "v1 " ++ h1 ++ [10] ++ lit "v2 " ++ h2 ++ [10] ++ lit "v1 " ++ h3 ++ [10], 0).
Proof.
  intros M junk junk_int junk_char unknown why lm_fuel header_error HM HC Lf. destruct list21 as (A1 & A2 & A3 & A4 & A5).
  destruct (whole_list loud M junk junk_int junk_char plenty (IeeeCases.tenth 1) bits32 unknown files21 why lm_fuel header_error (lit "d/m") model21
    (blocks17 mild_word) 1 before17 HM HC loud_log loud_sane stored21 (checked21 lm_fuel Lf)) as (rc & wm & _ & _ & K).
  destruct (K (lit "l.scp") entries19 A1 A2 A3 A4 A5) as (fuel0 & hyps & F2 & R).
  unfold entries19 in F2. inversion F2 as [|? h1 ? l1 _ F3]; subst. inversion F3 as [|? h2 ? l2 _ F4]; subst. inversion F4 as [|? h3 ? l3 _ F5]; subst. inversion F5; subst.
  exists fuel0, h1, h2, h3. intros fuel Hf. etransitivity; [exact (R fuel Hf)|]. f_equal. f_equal. unfold printed, entries19. cbn [combine map concat Datatypes.fst Datatypes.snd].
  change (lit "v1 ") with (lit "v1" ++ [32]). change (lit "v2 ") with (lit "v2" ++ [32]). rewrite app_nil_r, <- !app_assoc. reflexivity.
Qed.
