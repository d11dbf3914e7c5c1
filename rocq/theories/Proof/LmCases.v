(** A model in files with a language model. *)
From Coq Require Import ZArith String List Lia Bool.
From Verif.Base Require Import Prelude Lemmas.
From Verif.Model Require Import Util File Arith Pcm Fbank Srfft FbankInit Nnet Am Pool SymbolTable Fst Decoder Stt Main Loading Ieee IeeeFbank.
From Verif.Spec Require Import AudioSpec AmSpec FormatSpec PcmSpec TextSpec NnetSpec FbankSpec FstSpec DecoderSpec SttSpec TotalSpec SessionSpec LibmSpec ValueSpec LoadingSpec ProgramSpec EndSpec CommandSpec PlainSpec ExpSpec LmPlainSpec.
From Verif.Proof Require Import Loop Windows FiniteCases Text Lines Config Loading EndToEnd EndCases Command CommandUse PlainCosts PlainUse ExpUse ExpCases LmPlain LmUse.
From Verif.Proof Require LoadingCases PlainCases.
From Verif.Proof Require Import IeeeCases.
Import ListNotations.
Open Scope Z_scope.
Import LoadingCases.

(** Words 5 and 7, the mark of the end 8, the mark of the start 9; state 1 is that
    after the start, state 2 that after word 5. *)
Definition costs18 : list Z := [0; 0; 0; 0; 0; 1065353216; 0; 1073741824; 1056964608; 0].
Definition lm18 : transducer Z := mk_transducer 0
  [(2139095040, [mk_arc 2 5 5 1073741824; mk_arc 0 7 7 1065353216; mk_arc 3 8 8 1056964608; mk_arc 1 9 9 0]);
   (2139095040, [mk_arc 2 5 5 1056964608; mk_arc 0 0 0 1065353216]);
   (2139095040, [mk_arc 0 0 0 1073741824]);
   (0, [])].
Definition last18 : str := lit "original_lm=o".
Definition lines18 : list str := lines11 ++ [last11; lit "large_lm=l"].
Definition model18 : model (graph float32) :=
  mk_model graph13 (layers17 mild_word) [1065353216; 1065353216] 1 1 2 2 [0; 0; 1] words11 9 8 (Some (costs18, lm18)).
Definition files18 (name : str) : option str :=
  match List.find (fun e => str_eqb name (Datatypes.fst e))
    [(lit "d/m", text lines18 ++ last18);
     (lit "d/n", network_file 1 1 (layers17 mild_word));
     (lit "d/p", vector_file [1065353216; 1065353216]);
     (lit "d/t", vector_file [0; 0; 1]);
     (lit "d/w", text word_lines11);
     (lit "d/o", vector_file costs18);
     (lit "d/l", fst_file lm18);
     (lit "u.wav", wav 16 1476 1440 audio17)] with
  | Some e => Some (snd e)
  | None => None
  end.

Lemma wf18 : back_off_model lm18.
Proof.
  assert (forall s, 0 <= s < 4 -> is_state lm18 s) by (intros s P; exact P).
  split; [cbv; discriminate|]. split; [apply H; lia|]. split; [apply H; cbn; lia|].
  repeat constructor; cbn; try lia.
Qed.

Lemma is_lm18 : is_lm lm18 (fst_file lm18).
Proof.
  exists []. rewrite app_nil_r. split; [reflexivity|]. split; [|exact wf18].
  assert (Forall (fun e => fits 4 (Datatypes.fst e) /\
            Forall (fun a => fits 4 (next_state a) /\ fits 4 (input_label a) /\ fits 4 (output_label a) /\ fits 4 (weight a)) (snd e))
            (t_states lm18)) as S.
  { repeat constructor; cbn; lia. }
  split; [vm_compute; discriminate|]. split; [reflexivity|]. split; [apply fits_small; cbn; lia|exact S].
Qed.

Lemma stored18 : stored (ieee loud) bits32 files18 hclg13 (lit "d/m") model18.
Proof.
  exists (text lines18 ++ last18), (lines18 ++ [last18]). split; [reflexivity|].
  split.
  { exists lines18, last18. split; [reflexivity|]. split; [unfold lines18, lines11; cbn [map app]; repeat (constructor; [plain9|]); constructor|].
    split; [plain9|]. split; [reflexivity|].
    repeat (constructor; [right; do 2 eexists; apply classify_some; vm_compute; reflexivity|]). constructor. }
  split; [exists (lit "d/g"); split; [apply graph9_set; vm_compute; reflexivity|reflexivity]|].
  split; [data9 "n"%string; exact (network17 mild_word mild_fits)|].
  split.
  { data9 "p"%string. split; [apply vector9|].
    - split; [discriminate|]. split; [|cbn; lia]. repeat (constructor; [unfold fits; cbn; lia|]). constructor.
    - repeat (constructor; [vm_compute; reflexivity|]). constructor. }
  split; [apply (number9 _ _ 1); [vm_compute; reflexivity|cbn; lia]|].
  split; [apply (number9 _ _ 1); [vm_compute; reflexivity|cbn; lia]|].
  split; [apply (number9 _ _ 2); [vm_compute; reflexivity|cbn; lia]|].
  split; [apply (number9 _ _ 2); [vm_compute; reflexivity|cbn; lia]|].
  split; [data9 "t"%string; apply vector9; small|].
  split; [data9 "w"%string; exact words11_file|].
  cbn [m_lm model18]. split; [data9 "o"%string; apply vector9|data9 "l"%string; exact is_lm18].
  split; [discriminate|]. split; [|cbn; lia]. repeat (constructor; [unfold fits; cbn; lia|]). constructor.
Qed.

Notation small18 := (map bits32 costs18).
Notation large18 := (map_weights bits32 lm18).

Lemma sound_lm18 : sound_lm graph13 small18 large18 9 8.
Proof.
  constructor.
  - assert (forall s, 0 <= s < 4 -> is_state large18 s) by (intros s P; exact P).
    split; [cbv; discriminate|]. split; [apply H; lia|]. split; [apply H; cbn; lia|].
    repeat constructor; cbn; try lia.
  - intros x NZ. unfold labelled.
    change (arcs_at large18 0) with (map (fun a => mk_arc (next_state a) (input_label a) (output_label a) (bits32 (weight a)))
      [mk_arc 2 5 5 1073741824; mk_arc 0 7 7 1065353216; mk_arc 3 8 8 1056964608; mk_arc 1 9 9 0]).
    cbn [map filter input_label].
    destruct (Z.eqb_spec 5 x), (Z.eqb_spec 7 x), (Z.eqb_spec 8 x), (Z.eqb_spec 9 x); cbn [List.length]; lia.
  - exists (fun s => if s =? 0 then 0%nat else 1%nat). intros s b [P1 P2] E. cbn in P2.
    assert (s = 0 \/ s = 1 \/ s = 2 \/ s = 3) as [-> | [-> | [-> | ->]]] by lia; cbn in E; try discriminate; injection E as <-; cbn; lia.
  - vm_compute. discriminate.
  - change (lenZ small18) with 10. lia.
  - intros s a J. destruct (arcs13 s a J) as [(_ & [-> | ->]) | [(_ & [-> | ->]) | (_ & ->)]]; cbn [output_label]; change (lenZ small18) with 10; lia.
  - lia.
  - change (lenZ small18) with 10. lia.
Qed.

Lemma moderate_lm18 : moderate_lm small18 large18.
Proof. split; repeat constructor; vm_compute; reflexivity. Qed.

(** The word "so" after the start: the arc of its own; after "so": by back-off, at
    2 + 2 less the cost of 1 in the small model. *)
Lemma words18 : forall lib wm, back_off_words (ieee lib) small18 large18 9 8 wm ->
  wm_start wm = 1 /\ (exists c, wm_next wm 1 5 = Some (2, c) /\ fl_val c = fl_val (bits32 3204448256)) /\
  (exists c, wm_next wm 2 5 = Some (2, c) /\ fl_val c = fl_val (bits32 1077936128)).
Proof.
  intros lib wm [H1 H2 H3]. pose proof (sl_cycle _ _ _ _ _ sound_lm18) as C.
  assert (D : forall x s a r, lookup_word (ieee lib) large18 x s (Some a) -> lookup_word (ieee lib) large18 x s r -> r = Some a).
  { intros x s a r A B. exact (Lm.lookup_unique _ _ _ _ _ _ B A). }
  assert (L9 : lookup_word (ieee lib) large18 9 0 (Some (mk_arc 1 9 9 (bits32 0)))) by (eapply own_arc; reflexivity).
  assert (L5 : lookup_word (ieee lib) large18 5 1 (Some (mk_arc 2 5 5 (bits32 1056964608)))) by (eapply own_arc; reflexivity).
  assert (B5 : lookup_word (ieee lib) large18 5 2 (Some (mk_arc 2 5 5 (f_add (ieee lib) (bits32 1073741824) (bits32 1073741824))))).
  { refine (backed_off (ieee lib) large18 5 2 (mk_arc 0 0 0 (bits32 1073741824)) [] (mk_arc 2 5 5 (bits32 1073741824)) _ _ _); [reflexivity|reflexivity|].
    eapply own_arc. reflexivity. }
  assert (St : forall s, 0 <= s < 4 -> is_state large18 s) by (intros s P; exact P).
  split.
  { destruct H1 as [(a & A & ->)|(A & _)]; apply (D _ _ _ _ L9) in A; [injection A as ->; reflexivity|discriminate A]. }
  split.
  - destruct (H2 1 5 (St 1 ltac:(lia)) ltac:(cbn; lia)) as [(a & c & A & Ec & ->)|(A & _)]; apply (D _ _ _ _ L5) in A; [|discriminate A].
    injection A as ->. cbn in Ec. injection Ec as <-. eexists. split; [reflexivity|]. vm_compute. reflexivity.
  - destruct (H2 2 5 (St 2 ltac:(lia)) ltac:(cbn; lia)) as [(a & c & A & Ec & ->)|(A & _)]; apply (D _ _ _ _ B5) in A; [|discriminate A].
    injection A as ->. cbn in Ec. injection Ec as <-. eexists. split; [reflexivity|]. vm_compute. reflexivity.
Qed.

Lemma case18 : let m := model18 in
  stored (ieee loud) bits32 files18 hclg13 (lit "d/m") m /\ network_fits m (blocks17 mild_word) /\ one_word (m_graph m) /\
  m_lm m = Some (costs18, lm18) /\ sound_graph (m_graph m) (m_tid2pdf m) (lenZ (m_prior m)) /\
  sound_lm (m_graph m) small18 large18 (m_bos m) (m_eos m) /\ moderate_lm small18 large18 /\
  (forall s a, arc_from (m_graph m) s a -> moderate (weight a) /\ (output_label a <> 0 -> exists name, In (name, output_label a) (m_words m))) /\
  in32 (1, 0) (tenth 1) /\ short_silence (m_graph m) 1 /\
  m_layers m = before17 ++ [LogSoftmax] /\ Forall (fun w => in32 (1, 98) (f_log (ieee loud) (bits32 w))) (m_prior m) /\
  (forall w y, nnet_propagate (ieee loud) (map (layer_numbers bits32) before17) w = Ok [y] -> mild y) /\
  AudioSpec.decodes 2 audio17 samples17 [] /\
  (Z.of_nat (num_windows 400 160 (List.length samples17)) + 1) * (1 + 1) <= 4194304.
Proof.
  pose proof mild_case as (_ & A2 & A3 & _ & A5 & A6 & A7 & A8 & A9 & A10 & A11 & A12 & A13). cbv zeta in *.
  split; [exact stored18|]. split; [destruct A2; constructor; assumption|]. split; [exact A3|]. split; [reflexivity|]. split; [exact A5|].
  split; [exact sound_lm18|]. split; [exact moderate_lm18|]. split; [exact A6|]. split; [exact A7|]. split; [exact A8|]. split; [exact A9|].
  split; [exact A10|]. split; [exact A11|]. split; [exact A12|]. exact A13.
Qed.

(** The program with these files. *)
Lemma prints18 : forall M junk junk_int unknown why lm_fuel header_error, libm M -> close_logf M -> (4 <= lm_fuel)%nat ->
  exists fuel0 out, forall fuel, (fuel0 <= fuel)%nat ->
    run_main (ieee loud) ieee_wide (tenth 1) fuel files18
      (stt_load (ieee loud) (ieee_trig M) (ieee_init M) junk junk_int bits32 unknown files18 hclg13 why lm_fuel) header_error [lit "d/m"; lit "u.wav"]
    = Ok (out ++ [10], 0).
Proof.
  intros M junk junk_int unknown why lm_fuel header_error HM HC Lf.
  pose proof case18 as (A1 & A2 & A3 & A4 & A5 & A6 & A7 & A8 & A9 & A10 & A11 & A12 & A13 & A14 & A15). cbv zeta in *.
  destruct (mild_lm_printed loud M junk junk_int (tenth 1) bits32 unknown files18 hclg13 why lm_fuel header_error (lit "d/m") model18 (blocks17 mild_word) 1
    costs18 lm18 before17 HM HC loud_log loud_sane A1 A2 A3 A4 A5 A6 A7 Lf A8 A9 A10 A11 A12 (fun w y _ _ => A13 w y)) as (wm & _ & K).
  destruct (K (lit "u.wav") 16 1476 1440 audio17 samples17 [] ltac:(exists (lit "u"); reflexivity) eq_refl wav17 bytes17 A14 A15)
    as (rc & rows & _ & _ & fuel0 & out & _ & R). exists fuel0, out. exact R.
Qed.
