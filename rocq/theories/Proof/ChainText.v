(** What is printed for a model that the scripts made. *)
From Coq Require Import ZArith Reals String List.
From Verif.Base Require Import Prelude.
From Verif.Spec Require Import AudioSpec PcmSpec TextSpec NnetSpec FbankSpec DecoderSpec SttSpec TotalSpec SessionSpec LibmSpec ValueSpec LoadingSpec ProgramSpec EndSpec ChainSpec.
From Verif.Model Require Import Util Arith Fbank Srfft FbankInit Pool Fst Decoder Stt Main Loading Tools Ieee IeeeFbank.
From Verif.Proof Require Import EndToEnd ExtractorUse Chain.
Import ListNotations.
Open Scope Z_scope.

Lemma scripts_text : forall N (P : py_float N) sc off lib M junk junk_int tenth of_word unknown files hclg why lm_fuel header_error fn k blocks m,
  let O := ieee lib in let X := ieee_wide in
  libm M -> close_logf M -> made_by_scripts P sc off files hclg fn k blocks -> meant O of_word P sc off k blocks m ->
  forall wm good, model_words O of_word lm_fuel m wm good ->
  forall input bits chunk size data xs rest,
  ends_in input (lit ".wav") -> files input = Some (wav bits chunk size data) -> wav_sizes bits chunk size -> byte_list data ->
  AudioSpec.decodes (Z.to_nat (bits / 8)) data xs rest ->
  exists rc rows,
    made_of O of_word (ieee_trig M) (ieee_init M) junk junk_int lm_fuel m rc /\
    rows_of O rc (left_context blocks) (right_context blocks) (map (f_int O) xs) rows /\
  forall states,
  let cfg := utt_config O tenth rc in
  run_fits O X cfg wm good rows states -> (forall fuel, run_safe O X cfg fuel (rc_cache rc) rows) ->
  lively cfg states -> finite_costs O X cfg wm rows -> brief O X cfg wm rows -> ends cfg states -> listed m states ->
  exists fuel0 words names,
    Forall2 (fun w name => In (name, w) (k_words k)) words names /\
    (words = [] \/ exists s c total,
       path O X (k_graph k) (k_pdfs k) tenth wm (rev rows) s c words /\
       ending X (k_graph k) wm true s c total /\ x_is_inf X total = false) /\
    forall fuel, (fuel0 <= fuel)%nat ->
      run_main O X tenth fuel files
        (stt_load O (ieee_trig M) (ieee_init M) junk junk_int of_word unknown files hclg why lm_fuel) header_error [fn; input]
      = Ok (join [32] names ++ [10], 0).
Proof.
  intros N P sc off lib M junk junk_int tenth of_word unknown files hclg why lm_fuel header_error fn k blocks m O X HM HC Hmade Hmeant wm good Hw
    input bits chunk size data xs rest H1 H2 H3 H4 H5.
  destruct (scripts_store O of_word P sc off files hclg fn k blocks m Hmade Hmeant) as (St & bs & Nf & EL & ER).
  destruct (built_text lib M junk junk_int tenth of_word unknown files hclg why lm_fuel header_error fn m bs HM HC St Nf wm good Hw
    input bits chunk size data xs rest H1 H2 H3 H4 H5) as (rc & rows & Hrc & Hrows & K).
  exists rc, rows. split; [exact Hrc|]. rewrite <- EL, <- ER. split; [exact Hrows|]. intros states cfg P1 P2 P3 P4 P5 P6 P7.
  destruct (K states P1 P2 P3 P4 P5 P6 P7) as (fuel0 & words & names & Q1 & Q2 & Q3).
  destruct Hmeant as [Mg _ _ _ _ _ _ _ (Mt & _) (Mw & _) _]. rewrite Mg, Mt in Q2. rewrite Mw in Q1.
  exists fuel0, words, names. split; [exact Q1|]. split; [exact Q2|exact Q3].
Qed.
