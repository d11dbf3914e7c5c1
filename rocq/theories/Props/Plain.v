(** Conditions that can be checked (C106): from the graph and from limits of the
    numbers follows what other theorems ask for. *)
From Coq Require Import ZArith String List.
From Verif.Base Require Import Prelude.
From Verif.Spec Require Import AudioSpec AmSpec PcmSpec TextSpec NnetSpec FbankSpec DecoderSpec SttSpec TotalSpec SessionSpec LibmSpec ValueSpec LoadingSpec ProgramSpec EndSpec CommandSpec PlainSpec.
From Verif.Model Require Import Util Arith Pcm Fbank Srfft FbankInit Pool Fst Decoder Stt Main Loading Ieee IeeeFbank.
From Verif.Proof Require PlainCosts PlainUse PlainCases CommandUse IeeeCases TotalCases FiniteCases EndCases MelCloseCases.
Import ListNotations.
Open Scope Z_scope.

(** Weights and log probabilities of at most 2 ^ 100 and at most 2 ^ 22 arcs: the
    costs of all paths are finite, in single precision. *)
Theorem moderate_finite : forall L C (cfg : config float32 C) wm k frames,
  moderate_costs cfg wm k frames -> finite_costs (ieee L) ieee_wide cfg wm frames.
Proof. exact Proof.PlainCosts.moderate_finite. Qed.
Print Assumptions moderate_finite.

(** Fewer than 100000 arcs: the words of a path fit. *)
Theorem moderate_brief : forall L C (cfg : config float32 C) wm k frames,
  moderate_costs cfg wm k frames -> (lenZ frames + 1) * (k + 1) < 100000 -> brief (ieee L) ieee_wide cfg wm frames.
Proof. exact Proof.PlainCosts.moderate_brief. Qed.
Print Assumptions moderate_brief.

(** 1000 frames. *)
Theorem moderate_case : let cfg := Proof.CommandUse.config13 unit in
  moderate_costs cfg None 1 (repeat Proof.TotalCases.row9 1000) /\
  (lenZ (repeat Proof.TotalCases.row9 1000) + 1) * (1 + 1) < 100000.
Proof. exact (conj (Proof.PlainCases.costs13 unit) eq_refl). Qed.
Print Assumptions moderate_case.

(** Without a language model, a decoder needs a sound graph and rows of its width. *)
Theorem sound_graph_fits : forall F D C (O : fops F) (X : xops F D) (cfg : config F C) good width,
  c_lm cfg = None -> sound_graph (c_graph cfg) (c_pdf cfg) width ->
  forall rows, Forall (fun r => lenZ r = width) rows ->
  run_fits O X cfg None good rows (all_states (c_graph cfg)) /\ lively cfg (all_states (c_graph cfg)).
Proof. exact @Proof.PlainUse.sound_fits. Qed.
Print Assumptions sound_graph_fits.

(** The rows of a recognizer have the width of its prior. *)
Theorem rows_width : forall F C (O : fops F) (rc : recognizer F C) L R c d samples rows,
  features_fit O rc d samples -> am_fits rc L R c d -> rows_of O rc L R samples rows ->
  Forall (fun r => lenZ r = lenZ (Am.am_prior (rc_am rc))) rows.
Proof. exact @Proof.PlainUse.rows_width. Qed.
Print Assumptions rows_width.

(** The program of C105 without a language model, with conditions on its files and
    on the log probabilities of the network only. *)
Theorem plain_prints : forall lib M junk junk_int tenth of_word unknown files hclg why lm_fuel header_error fn m blocks k,
  let O := ieee lib in let X := ieee_wide in
  libm M -> close_logf M -> stored O of_word files hclg fn m -> network_fits m blocks -> one_word (m_graph m) ->
  m_lm m = None -> sound_graph (m_graph m) (m_tid2pdf m) (lenZ (m_prior m)) ->
  (forall s a, arc_from (m_graph m) s a -> moderate (weight a) /\ (output_label a <> 0 -> exists name, In (name, output_label a) (m_words m))) ->
  in32 (1, 0) tenth -> short_silence (m_graph m) k ->
  forall input bits chunk size data xs rest,
  ends_in input (lit ".wav") -> files input = Some (wav bits chunk size data) -> wav_sizes bits chunk size -> byte_list data ->
  AudioSpec.decodes (Z.to_nat (bits / 8)) data xs rest ->
  exists rc rows,
    made_of O of_word (ieee_trig M) (ieee_init M) junk junk_int lm_fuel m rc /\
    rows_of O rc (left_context blocks) (right_context blocks) (map (f_int O) xs) rows /\
  (Forall (Forall moderate) rows -> (lenZ rows + 1) * (k + 1) <= 4194304 ->
  exists fuel0 out,
    (out = [] \/ exists w s c total, In (out, w) (m_words m) /\
       path O X (m_graph m) (m_tid2pdf m) tenth None (rev rows) s c [w] /\
       ending X (m_graph m) None true s c total /\ x_is_inf X total = false) /\
    forall fuel, (fuel0 <= fuel)%nat ->
      run_main O X tenth fuel files
        (stt_load O (ieee_trig M) (ieee_init M) junk junk_int of_word unknown files hclg why lm_fuel) header_error [fn; input]
      = Ok (out ++ [10], 0)).
Proof. exact Proof.PlainUse.plain_printed. Qed.
Print Assumptions plain_prints.

(** The files of [command_prints_case] meet the conditions. *)
Theorem plain_prints_case : let m := Proof.CommandUse.model13 in let rows := [Proof.TotalCases.row9; Proof.TotalCases.row9] in
  stored (ieee Proof.FiniteCases.rough) Proof.EndCases.bits32 Proof.EndCases.files11 Proof.CommandUse.hclg13 (lit "d/m") m /\
  network_fits m Proof.EndCases.blocks11 /\ one_word (m_graph m) /\ sound_graph (m_graph m) (m_tid2pdf m) (lenZ (m_prior m)) /\
  (forall s a, arc_from (m_graph m) s a -> moderate (weight a) /\ (output_label a <> 0 -> exists name, In (name, output_label a) (m_words m))) /\
  short_silence (m_graph m) 1 /\
  in32 (1, 0) (Proof.IeeeCases.tenth 1) /\ m_lm m = None /\ Forall (Forall moderate) rows /\ (lenZ rows + 1) * (1 + 1) <= 4194304.
Proof.
  exact (conj Proof.CommandUse.stored13 (conj Proof.CommandUse.fits13 (conj Proof.CommandUse.one13 (conj Proof.PlainCases.sound13
    (conj Proof.PlainCases.arcs_fine13 (conj Proof.PlainCases.silence13 Proof.PlainCases.plain13)))))).
Qed.
Print Assumptions plain_prints_case.
