(** What the program prints for the files of the case: all paths, listed. *)
From Coq Require Import ZArith String List Bool Lia Floats.SpecFloat.
From Verif.Base Require Import Prelude Lemmas.
From Verif.Model Require Import Util File Arith Pcm Fbank Srfft FbankInit Nnet Am Pool SymbolTable Fst ConstFst Decoder Stt Main Loading Ieee IeeeFbank.
From Verif.Spec Require Import AudioSpec PcmSpec TextSpec NnetSpec FbankSpec FstSpec DecoderSpec SttSpec LibmSpec ValueSpec LoadingSpec ConstFstSpec GraphModelSpec ProgramSpec EndSpec ListSpec CommandSpec PlainSpec ExpSpec LmPlainSpec CheckedSpec CloseSpec.
From Verif.Proof Require Import DecoderBase Decoder DecoderMain DecoderCases IeeeLaws IeeeCases TotalCases FiniteCases EndToEnd EndCases ExpCases CloseCheckedCases.
From Verif.Proof Require Import ConstFstCases ListCases Whole WholeCases.
Import ListNotations.
Open Scope Z_scope.

Notation way := (state * float32 * list Z)%type.
Definition known (p : way) (layer : list way) : bool :=
  existsb (fun q => state_eqb (Datatypes.fst (Datatypes.fst p)) (Datatypes.fst (Datatypes.fst q)) &&
    sf_eqb (fl_val (snd (Datatypes.fst p))) (fl_val (snd (Datatypes.fst q))) && (if list_eq_dec Z.eq_dec (snd p) (snd q) then true else false)) layer.

Lemma known_in : forall p layer, known p layer = true -> In p layer.
Proof.
  intros ((s & c) & ws) layer H. apply existsb_exists in H. destruct H as (((s' & c') & ws') & J & E). cbn [Datatypes.fst snd] in E.
  apply andb_true_iff in E. destruct E as [E E3]. apply andb_true_iff in E. destruct E as [E1 E2].
  apply state_eqb_spec in E1. apply sf_eqb_eq in E2. apply fl_eq in E2. destruct (list_eq_dec Z.eq_dec ws ws'); [now subst|discriminate E3].
Qed.

Section Ways.
Variable L : library.
Variable cfg : config float32 unit.
Notation O := (ieee L).
Notation X := ieee_wide.
Notation path := (path O X (c_graph cfg) (c_pdf cfg) (c_scale cfg) None).

Definition by_silence (p : way) : list way :=
  let '(s, l, c, ws) := p in
  map (fun a => ((next_state a, l), x_narrow X (cost_after O X c (weight a) (f_zero O) None), add_word (output_label a) ws))
    (filter (fun a => input_label a =? 0) (arcs_of cfg s)).
Definition by_frame (logp : list float32) (p : way) : list way :=
  let '(s, l, c, ws) := p in
  flat_map (fun a => match log_likelihood O cfg logp (input_label a) with
      | Ok x => [((next_state a, l), x_narrow X (cost_after O X c (weight a) (x_neg X x) None), add_word (output_label a) ws)]
      | Fault _ => []
      end) (filter (fun a => negb (input_label a =? 0)) (arcs_of cfg s)).

(** The ways for the frames, newest first, with one silent arc at most after each. *)
Fixpoint ways (fs : list (list float32)) : list way :=
  let begun := match fs with
    | [] => [((g_start (c_graph cfg), 0), f_zero O, [])]
    | logp :: fs => flat_map (by_frame logp) (ways fs)
    end in
  begun ++ flat_map by_silence begun.

Definition ended (layer : list way) : bool := forallb (fun p => forallb (fun q => known q layer) (by_silence p)) layer.
Fixpoint all_ended (fs : list (list float32)) : bool :=
  ended (ways fs) && match fs with [] => true | _ :: fs => all_ended fs end.

Lemma ways_all : forall fs s c ws, path fs s c ws -> all_ended fs = true -> In (s, c, ws) (ways fs).
Proof.
  intros fs s c ws P. induction P as [|fs s l c ws a l' lw P IH Af Z0 El|fs logp s l c ws a l' lw ac P IH Af NZ Ac El]; intros H.
  - cbn [ways]. apply in_or_app. left. now left.
  - specialize (IH H). cbn [lm_after] in El. injection El as <- <-.
    assert (E : ended (ways fs) = true) by (destruct fs; cbn [all_ended] in H; apply andb_true_iff in H; tauto).
    unfold ended in E. rewrite forallb_forall in E. specialize (E _ IH). rewrite forallb_forall in E. apply known_in. apply E.
    cbn [by_silence]. apply in_map_iff. exists a. split; [reflexivity|]. apply filter_In. split; [exact (arcs_of_in cfg _ _ Af)|]. now rewrite Z0.
  - cbn [all_ended] in H. apply andb_true_iff in H. destruct H as [_ H]. specialize (IH H). cbn [lm_after] in El. injection El as <- <-.
    cbn [ways]. apply in_or_app. left. apply in_flat_map. exists ((s, l), c, ws). split; [exact IH|]. cbn [by_frame].
    apply in_flat_map. exists a. split.
    + apply filter_In. split; [exact (arcs_of_in cfg _ _ Af)|]. apply negb_true_iff. now apply Z.eqb_neq.
    + destruct (acoustic_log O X cfg _ _ _ Ac) as (y & Ey & ->). rewrite Ey. now left.
Qed.

(** The words of all ways that are cheapest in the end. *)
Definition final_weight (s : Z) : float32 := match nth_error (g_states (c_graph cfg)) (Z.to_nat s) with Some (w, _) => w | None => infinite end.
Definition total_of (p : way) : float64 :=
  x_add X (x_wide X (snd (Datatypes.fst p))) (x_wide X (final_weight (Datatypes.fst (Datatypes.fst (Datatypes.fst p))))).
Definition only_words (fs : list (list float32)) (best : float64) (words : list Z) : bool :=
  forallb (fun p => x_is_inf X (total_of p) || x_lt X best (total_of p) || (if list_eq_dec Z.eq_dec (snd p) words then true else false)) (ways fs).

Lemma only_cheapest : forall rows s0 c0 w0 words words',
  all_ended (rev rows) = true -> path (rev rows) s0 c0 w0 ->
  ending X (c_graph cfg) None true s0 c0 (total_of (s0, c0, w0)) ->
  x_is_inf X (total_of (s0, c0, w0)) = false -> x_lt X (total_of (s0, c0, w0)) (x_inf X) = true ->
  only_words (rev rows) (total_of (s0, c0, w0)) words = true ->
  cheapest L (c_graph cfg) (c_pdf cfg) (c_scale cfg) None rows words' -> words' = words.
Proof.
  intros rows s0 c0 w0 words words' Ha P0 E0 I0 F0 H [(_ & A)|(s & c & total & P & En & I & A)].
  - destruct (A s0 c0 w0 _ P0 E0); congruence.
  - pose proof (ways_all _ _ _ _ P Ha) as J. unfold only_words in H. rewrite forallb_forall in H. specialize (H _ J). cbn [snd] in H.
    assert (Et : total = total_of (s, c, words')).
    { destruct En as (w & (_ & l & Ew) & ->). unfold total_of, final_weight. cbn [Datatypes.fst snd]. now rewrite Ew. }
    subst total. rewrite I in H. cbn [orb] in H. destruct (A s0 c0 w0 _ P0 E0) as [K|K]; [congruence|]. rewrite K in H. cbn [orb] in H.
    destruct (list_eq_dec Z.eq_dec words' words); [assumption|discriminate H].
Qed.
End Ways.

(** * The files of the case *)
Notation O := (ieee loud).
Definition config22 : config float32 unit := new_config O graph9 [0; 0; 1] (tenth 1) None.
Lemma cheapest22 : forall n words, n = 1%nat \/ n = 3%nat ->
  cheapest loud graph9 [0; 0; 1] (tenth 1) None (repeat row20 n) words -> words = [5; 7].
Proof.
  intros n words Hn H.
  assert (Af0 : arc_from graph9 0 (mk_arc 1 0 5 (tenth 2))) by (split; [lia|]; eexists; eexists; split; [reflexivity|cbn; auto]).
  assert (Af1 : arc_from graph9 1 (mk_arc 1 1 0 (tenth 1))) by (split; [lia|]; eexists; eexists; split; [reflexivity|cbn; auto]).
  assert (Af2 : arc_from graph9 1 (mk_arc 2 2 7 (tenth (-1)))) by (split; [lia|]; eexists; eexists; split; [reflexivity|cbn; auto]).
  assert (A1 : acoustic O ieee_wide [0; 0; 1] (tenth 1) row20 (mk_arc 1 1 0 (tenth 1)) (x_neg ieee_wide (f_mul O (tenth 1) (num 1 0)))).
  { exists 0, (num 1 0). repeat split; cbn; lia. }
  assert (A2 : acoustic O ieee_wide [0; 0; 1] (tenth 1) row20 (mk_arc 2 2 7 (tenth (-1))) (x_neg ieee_wide (f_mul O (tenth 1) (num 0 0)))).
  { exists 1, (num 0 0). repeat split; cbn; lia. }
  pose proof (path_eps O ieee_wide graph9 [0; 0; 1] (tenth 1) None [] 0 0 _ [] _ 0 None (path_start O ieee_wide graph9 [0; 0; 1] (tenth 1) None) Af0 eq_refl eq_refl) as P0.
  destruct Hn as [-> | ->].
  - pose proof (path_emit O ieee_wide graph9 [0; 0; 1] (tenth 1) None [] row20 1 0 _ _ _ 0 None _ P0 Af2 ltac:(discriminate) A2 eq_refl) as P1.
    refine (only_cheapest loud config22 (repeat row20 1) _ _ _ [5; 7] words _ P1 _ _ _ _ H).
    + vm_compute. reflexivity.
    + exists (tenth 1). split; [split; [cbn; lia|eexists; reflexivity]|reflexivity].
    + vm_compute. reflexivity.
    + vm_compute. reflexivity.
    + vm_compute. reflexivity.
  - pose proof (path_emit O ieee_wide graph9 [0; 0; 1] (tenth 1) None _ row20 1 0 _ _ _ 0 None _ P0 Af1 ltac:(discriminate) A1 eq_refl) as P1.
    pose proof (path_emit O ieee_wide graph9 [0; 0; 1] (tenth 1) None _ row20 1 0 _ _ _ 0 None _ P1 Af1 ltac:(discriminate) A1 eq_refl) as P2.
    pose proof (path_emit O ieee_wide graph9 [0; 0; 1] (tenth 1) None _ row20 1 0 _ _ _ 0 None _ P2 Af2 ltac:(discriminate) A2 eq_refl) as P3.
    refine (only_cheapest loud config22 (repeat row20 3) _ _ _ [5; 7] words _ P3 _ _ _ _ H).
    + vm_compute. reflexivity.
    + exists (tenth 1). split; [split; [cbn; lia|eexists; reflexivity]|reflexivity].
    + vm_compute. reflexivity.
    + vm_compute. reflexivity.
    + vm_compute. reflexivity.
Qed.

Lemma tone_rows : forall M junk junk_int lm_fuel rc n chunk size rows, libm M ->
  made_of O bits32 (ieee_trig M) (ieee_init M) junk junk_int lm_fuel model20 rc -> wav_sizes 16 chunk size ->
  wav_rows O (blocks17 mild_word) rc (wav 16 chunk size (tone n)) rows -> rows = repeat row20 (num_windows 400 160 n).
Proof.
  intros M junk junk_int lm_fuel rc n chunk size rows HM Hm Hs (bits' & chunk' & size' & data' & xs' & rest' & Ec' & Hsz' & _ & Dx' & Hrows).
  destruct (wav_inj _ _ _ _ _ _ _ _ Hs Hsz' Ec') as (<- & <-).
  change (Z.to_nat (16 / 8)) with 2%nat in Dx'.
  assert (xs' = repeat (-1529) n) as ->.
  { pose proof (tone_decodes n) as (D1 & D2 & D3). destruct Dx' as (D1' & D2' & D3').
    apply (SttCut.decodes_unique 2 ltac:(lia) xs' (repeat (-1529) n) rest' []); auto. congruence. }
  pose proof Hm as (_ & _ & _ & _ & _ & _ & _ & _ & _ & A9 & _).
  change (left_context (blocks17 mild_word)) with 1%nat in Hrows. change (right_context (blocks17 mild_word)) with 1%nat in Hrows.
  pose proof (rows20 _ _ _ _ _ _ _ _ Hm (audio_features loud M junk junk_int _ rc 2 _ HM A9 (le_S _ _ (le_S _ _ (le_n 2))) (proj1 (proj2 Dx'))) Hrows) as Er.
  now rewrite map_length, repeat_length in Er.
Qed.

Lemma heard_tone : forall M junk junk_int lm_fuel rc n chunk size hyp, libm M ->
  made_of O bits32 (ieee_trig M) (ieee_init M) junk junk_int lm_fuel model20 rc -> wav_sizes 16 chunk size ->
  num_windows 400 160 n = 1%nat \/ num_windows 400 160 n = 3%nat ->
  heard_best loud (tenth 1) model20 None (blocks17 mild_word) rc (wav 16 chunk size (tone n)) hyp -> hyp = lit "so what".
Proof.
  intros M junk junk_int lm_fuel rc n chunk size hyp HM Hm Hs Hn (rows & words & names & Hr & -> & Hw & Hc).
  apply (tone_rows M junk junk_int lm_fuel rc n chunk size rows HM Hm Hs) in Hr. subst rows.
  apply cheapest22 in Hc; [|exact Hn]. subst words.
  inversion Hw as [|? n1 ? l1 J1 H1]; subst. inversion H1 as [|? n2 ? l2 J2 H2]; subst. inversion H2; subst.
  change (m_words model20) with words11 in J1, J2. unfold words11 in J1, J2. cbn [In] in J1, J2.
  assert (n1 = lit "so") as -> by (destruct J1 as [E|[E|[E|[E|[E|[]]]]]]; injection E; congruence || (intros; discriminate)).
  assert (n2 = lit "what") as -> by (destruct J2 as [E|[E|[E|[E|[E|[]]]]]]; injection E; congruence || (intros; discriminate)).
  reflexivity.
Qed.

Lemma prints22 : forall M junk junk_int junk_char unknown why lm_fuel header_error, libm M -> close_logf M ->
  exists fuel0, forall fuel, (fuel0 <= fuel)%nat ->
    run_main O ieee_wide (tenth 1) fuel files22
      (stt_load O (ieee_trig M) (ieee_init M) junk junk_int bits32 unknown files22 (graph_read junk_char plenty bits32 files22) why lm_fuel)
      header_error [lit "d/m"; lit "l.scp"]
    = Ok (lit "v1 so what" ++ [10] ++ lit "v2 so what" ++ [10], 0).
Proof.
  intros M junk junk_int junk_char unknown why lm_fuel header_error HM HC. destruct list22 as (A1 & A2 & A3 & A4 & A5).
  destruct (whole_best_list loud M junk junk_int junk_char plenty (tenth 1) bits32 unknown files22 why lm_fuel header_error (lit "d/m") model22
    (blocks17 mild_word) 1 before17 HM HC loud_log loud_sane stored22 (checked22 lm_fuel)) as (rc & wm & Hm & Hw & K).
  destruct (K (lit "l.scp") entries13 A1 A2 A3 A4 (A5 M junk junk_int lm_fuel rc wm HM Hm Hw)) as (fuel0 & hyps & F2 & R).
  rewrite meant22 in F2, Hm, Hw. cbn in Hw. subst wm.
  unfold entries13 in F2. inversion F2 as [|? h1 ? l1 (c1 & E1 & B1) F3]; subst. inversion F3 as [|? h2 ? l2 (c2 & E2 & B2) F4]; subst. inversion F4; subst.
  injection E1 as <-. injection E2 as <-. change audio17 with (tone 720) in B1.
  pose proof (heard_tone M junk junk_int lm_fuel rc 720 1476 1440 h1 HM Hm wav17 (or_intror eq_refl) B1) as ->.
  assert (W : wav_sizes 16 836 800) by (clear; unfold wav_sizes, valid_width, fits; cbn; lia).
  pose proof (heard_tone M junk junk_int lm_fuel rc 400 836 800 h2 HM Hm W (or_introl eq_refl) B2) as ->.
  exists fuel0. intros fuel Hf. etransitivity; [exact (R fuel Hf)|]. reflexivity.
Qed.
