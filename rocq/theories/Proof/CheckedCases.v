(** A checked model of two words with a language model, and a list of two files. *)
From Coq Require Import ZArith String List Lia Bool.
From Verif.Base Require Import Prelude Lemmas.
From Verif.Model Require Import Util File Arith Pcm Fbank Srfft FbankInit Nnet Am Pool SymbolTable Fst Decoder Stt Main Loading Ieee IeeeFbank.
From Verif.Spec Require Import AudioSpec AmSpec FormatSpec PcmSpec TextSpec NnetSpec FbankSpec FstSpec DecoderSpec SttSpec TotalSpec SessionSpec LibmSpec ValueSpec LoadingSpec ProgramSpec EndSpec ListSpec CommandSpec PlainSpec ExpSpec LmPlainSpec CheckedSpec.
From Verif.Proof Require Import Loop Windows TotalCases FiniteCases EndToEnd EndCases CommandUse ExpCases LmCases Checked.
From Verif.Proof Require Import IeeeCases ListCases.
From Verif.Proof Require PlainCases ProgramCases Lines.
Import ListNotations.
Open Scope Z_scope.

Definition model19 : model (graph float32) :=
  mk_model graph9 (layers17 mild_word) [1065353216; 1065353216] 1 1 2 2 [0; 0; 1] words11 9 8 (Some (costs18, lm18)).
Definition entries19 : list (bytes * bytes) := [(lit "v1", lit "u.wav"); (lit "v2", lit "x.wav"); (lit "v1", lit "x.wav")].
Definition files19 (name : str) : option str :=
  if str_eqb name (lit "l.scp") then Some (list_file entries19)
  else if str_eqb name (lit "x.wav") then Some (wav 16 836 800 (tone 400))
  else files18 name.

Lemma stored19 : stored (ieee loud) bits32 files19 hclg11 (lit "d/m") model19.
Proof.
  destruct stored18 as (content & lines & Fc & Cl & Hg & Hn & Hp & H1 & H2 & H3 & H4 & Ht & Hs & Hl).
  assert (K : forall p c, files18 p = Some c -> files19 p = Some c).
  { intros p c E. unfold files19. destruct (str_eqb p (lit "l.scp")) eqn:E1.
    - apply Lines.str_eqb_eq in E1. subst p. discriminate E.
    - destruct (str_eqb p (lit "x.wav")) eqn:E2; [|exact E]. apply Lines.str_eqb_eq in E2. subst p. discriminate E. }
  assert (S : forall k good, stored_at files18 (lit "d/m") lines k good -> stored_at files19 (lit "d/m") lines k good).
  { intros k good (p & c & P1 & P2 & P3). exists p, c. auto. }
  exists content, lines. split; [now apply K|]. split; [exact Cl|].
  split.
  { destruct Hg as (p & P1 & P2). exists p. split; [exact P1|]. unfold hclg13, hclg11 in *. destruct (str_eqb p (lit "d/g")); [reflexivity|discriminate P2]. }
  split; [now apply S|]. split; [now apply S|]. split; [exact H1|]. split; [exact H2|]. split; [exact H3|]. split; [exact H4|].
  split; [now apply S|]. split; [now apply S|]. cbn [m_lm model18] in Hl. destruct Hl as (L1 & L2). cbn [m_lm model19]. split; now apply S.
Qed.

Lemma sound9 : sound_graph graph9 [0; 0; 1] 2.
Proof.
  constructor.
  - cbn. lia.
  - cbn. lia.
  - intros s a Af. apply arcs9 in Af. destruct Af as [(_ & [-> | ->])|[(_ & [-> | ->])|(_ & ->)]]; cbn; lia.
  - intros s a Af NZ. apply arcs9 in Af.
    destruct Af as [(_ & [-> | ->])|[(_ & [-> | ->])|(_ & ->)]]; cbn [input_label] in *; try lia; (split; [lia|]).
    + exists 0. split; [reflexivity|lia].
    + exists 0. split; [reflexivity|lia].
    + exists 1. split; [reflexivity|lia].
    + exists 1. split; [reflexivity|lia].
  - intros s Hs. change (lenZ (g_states graph9)) with 3 in Hs.
    assert (E : s = 0 \/ s = 1 \/ s = 2) by lia. destruct E as [-> |[-> | ->]];
      [exists (mk_arc 0 1 0 (tenth 7))|exists (mk_arc 1 1 0 (tenth 1))|exists (mk_arc 2 2 0 (tenth 0))];
      (split; [split; [lia|]; eexists; eexists; (split; [reflexivity|cbn; auto])|discriminate]).
Qed.

Lemma silence9 : short_silence graph9 1.
Proof.
  intros s n t H. assert (G : (n = 0 /\ t = s) \/ (n = 1 /\ t = 1)); [|lia].
  induction H as [|n t a H IH Af Z0]; [now left|]. apply arcs9 in Af. right.
  destruct Af as [(E & [-> | ->])|[(E & [-> | ->])|(E & ->)]]; cbn [input_label next_state] in *; try discriminate Z0.
  destruct IH as [(-> & _)|(_ & E')]; lia.
Qed.

Lemma sound_lm9 : sound_lm graph9 small18 large18 9 8.
Proof.
  destruct sound_lm18 as [S1 S2 S3 S4 S5 S6 S7 S8]. constructor; auto.
  intros s a J. apply arcs9 in J. change (lenZ small18) with 10. destruct J as [(_ & [-> | ->]) | [(_ & [-> | ->]) | (_ & ->)]]; cbn [output_label]; lia.
Qed.

Lemma checked19 : forall lm_fuel, (4 <= lm_fuel)%nat -> checked_model loud bits32 lm_fuel (tenth 1) model19 (blocks17 mild_word) 1 before17.
Proof.
  intros lm_fuel Lf. pose proof mild_case as (_ & A2 & _ & _ & _ & _ & A7 & _ & A9 & A10 & A11 & _). cbv zeta in *.
  constructor.
  - destruct A2. constructor; assumption.
  - exact sound9.
  - intros s a Af. change (m_graph model19) with graph9 in Af. apply arcs9 in Af. split.
    + destruct Af as [(_ & [-> | ->])|[(_ & [-> | ->])|(_ & ->)]]; cbn [weight]; apply PlainCases.tenth_moderate; cbn; tauto.
    + destruct Af as [(_ & [-> | ->])|[(_ & [-> | ->])|(_ & ->)]]; cbn [output_label]; intros NZ; try (exfalso; now apply NZ).
      * exists (lit "so"). cbn. tauto.
      * exists (lit "what"). cbn. tauto.
  - exact A7.
  - exact silence9.
  - exact A9.
  - exact A10.
  - intros w y _ _. exact (A11 w y).
  - intros costs t E. injection E as <- <-. split; [exact sound_lm9|]. split; [exact moderate_lm18|exact Lf].
Qed.

(** Paths of two words: "so what". *)
Lemma two_words9 : ~ one_word graph9.
Proof.
  intros H. assert (W : walk graph9 2 [5; 7]); [|apply H in W; cbn in W; lia].
  apply (walk_arc graph9 1 [5] (mk_arc 2 2 7 (tenth (-1)))).
  - apply (walk_arc graph9 0 [] (mk_arc 1 0 5 (tenth 2))); [constructor|]. split; [lia|]. eexists. eexists. split; [reflexivity|cbn; auto].
  - split; [lia|]. eexists. eexists. split; [reflexivity|cbn; auto].
Qed.

Lemma short_tone : forall n chunk size, wav_sizes 16 chunk size -> byte_list (wav 16 chunk size (tone n)) -> (num_windows 400 160 n <= 20)%nat ->
  short_wav model19 1 (wav 16 chunk size (tone n)).
Proof.
  intros n chunk size Hs Hb Hn. exists 16, chunk, size, (tone n), (repeat (-1529) n), [].
  split; [reflexivity|]. split; [exact Hs|]. split; [exact Hb|]. split; [apply tone_decodes|]. rewrite repeat_length. cbv zeta. split; [lia|right; lia].
Qed.

Lemma list19 : ~ ends_in (lit "l.scp") (lit ".wav") /\ 4 <= lenZ (lit "l.scp") /\ files19 (lit "l.scp") = Some (list_file entries19) /\
  Forall ProgramSpec.entry_ok entries19 /\
  Forall (fun e => exists content, files19 (snd e) = Some content /\ short_wav model19 1 content) entries19.
Proof.
  split; [apply (ProgramCases.not_wav _ (lit "l") (lit ".scp")); [reflexivity|reflexivity|discriminate]|].
  split; [vm_compute; discriminate|]. split; [reflexivity|].
  split.
  { unfold entries19. repeat (apply Forall_cons; [split; [apply ProgramCases.clean_lit; reflexivity|]; split; [apply ProgramCases.clean_lit; reflexivity|]; split; [discriminate|reflexivity]|]). constructor. }
  assert (U : short_wav model19 1 (wav 16 1476 1440 audio17)).
  { change audio17 with (tone 720). apply short_tone; [exact wav17| |cbn; lia]. apply ProgramCases.wav_bytes; [apply tone_bytes|reflexivity]. }
  assert (V : short_wav model19 1 (wav 16 836 800 (tone 400))).
  { apply short_tone; [unfold wav_sizes, valid_width, fits; cbn; lia| |cbn; lia]. apply ProgramCases.wav_bytes; [apply tone_bytes|reflexivity]. }
  constructor; [eexists; split; [reflexivity|exact U]|]. constructor; [eexists; split; [reflexivity|exact V]|]. constructor; [eexists; split; [reflexivity|exact V]|constructor].
Qed.

Lemma prints19 : forall M junk junk_int unknown why lm_fuel header_error, libm M -> close_logf M -> (4 <= lm_fuel)%nat ->
  exists fuel0 h1 h2 h3, forall fuel, (fuel0 <= fuel)%nat ->
    run_main (ieee loud) ieee_wide (tenth 1) fuel files19
      (stt_load (ieee loud) (ieee_trig M) (ieee_init M) junk junk_int bits32 unknown files19 hclg11 why lm_fuel) header_error [lit "d/m"; lit "l.scp"]
    = Ok (lit "v1 " ++ h1 ++ [10] ++ lit "v2 " ++ h2 ++ [10] ++ lit "v1 " ++ h3 ++ [10], 0).
Proof.
  intros M junk junk_int unknown why lm_fuel header_error HM HC Lf. destruct list19 as (A1 & A2 & A3 & A4 & A5).
  destruct (checked_list loud M junk junk_int (tenth 1) bits32 unknown files19 hclg11 why lm_fuel header_error (lit "d/m") model19 (blocks17 mild_word) 1 before17
    HM HC loud_log loud_sane stored19 (checked19 lm_fuel Lf)) as (rc & wm & _ & _ & K).
  destruct (K (lit "l.scp") entries19 A1 A2 A3 A4 A5) as (fuel0 & hyps & F2 & R).
  unfold entries19 in F2. inversion F2 as [|? h1 ? l1 _ F3]; subst. inversion F3 as [|? h2 ? l2 _ F4]; subst. inversion F4 as [|? h3 ? l3 _ F5]; subst. inversion F5; subst.
  exists fuel0, h1, h2, h3. intros fuel Hf. etransitivity; [exact (R fuel Hf)|]. f_equal. f_equal. unfold printed, entries19. cbn [combine map concat Datatypes.fst Datatypes.snd].
  change (lit "v1 ") with (lit "v1" ++ [32]). change (lit "v2 ") with (lit "v2" ++ [32]). rewrite app_nil_r, <- !app_assoc. reflexivity.
Qed.
