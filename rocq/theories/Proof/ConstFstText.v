(** Text from a model all of whose parts are in files. *)
From Coq Require Import ZArith Reals String List.
From Verif.Base Require Import Prelude.
From Verif.Spec Require Import AudioSpec PcmSpec TextSpec NnetSpec FbankSpec DecoderSpec SttSpec TotalSpec SessionSpec LibmSpec ValueSpec FstSpec LoadingSpec ProgramSpec EndSpec ConstFstSpec GraphModelSpec.
From Verif.Model Require Import Util Arith Fbank Srfft FbankInit Pool Fst Decoder Stt Main Loading Ieee IeeeFbank ConstFst.
From Verif.Proof Require Import MelClose FbankBound ExtractorUse ConstFstCases.
From Verif.Proof Require LoadingCases.
Import ListNotations.
Open Scope Z_scope.

Lemma whole_loaded : forall F (O : fops F) T I junk junk_int junk_char room of_word unknown files why lm_fuel fn m fb,
  stored_whole O of_word files room fn m -> fbank_new O T I junk junk_int = Ok fb ->
  exists rc ps, stt_init O T I junk junk_int of_word unknown files (graph_read junk_char room of_word files) why lm_fuel fn = Ok (inl rc, ps) /\
    made_of O of_word T I junk junk_int lm_fuel (with_graph of_word m) rc.
Proof.
  intros F O T I junk junk_int junk_char room of_word unknown files why lm_fuel fn m fb S.
  exact (LoadingCases.loaded_parts O T I junk junk_int of_word unknown files _ why lm_fuel fn _ fb (whole_stored F O of_word junk_char files room fn m S)).
Qed.

Lemma whole_text : forall lib M junk junk_int junk_char room tenth of_word unknown files why lm_fuel header_error fn m0 blocks,
  let O := ieee lib in let X := ieee_wide in
  let m := with_graph of_word m0 in let hclg := graph_read junk_char room of_word files in
  libm M -> close_logf M -> stored_whole O of_word files room fn m0 -> network_fits m blocks ->
  forall wm good, model_words O of_word lm_fuel m wm good ->
  forall input bits chunk size data xs rest,
  ends_in input (lit ".wav") -> files input = Some (wav bits chunk size data) -> wav_sizes bits chunk size -> byte_list data ->
  AudioSpec.decodes (Z.to_nat (bits / 8)) data xs rest ->
  exists rc rows,
    made_of O of_word (ieee_trig M) (ieee_init M) junk junk_int lm_fuel m rc /\
    rows_of O rc (left_context blocks) (right_context blocks) (map (f_int O) xs) rows /\
  forall states,
  let cfg := utt_config O tenth rc in
  run_fits O X cfg wm good rows states -> (forall fuel, run_safe O X cfg fuel (rc_cache rc) rows) ->
  lively cfg states -> finite_costs O X cfg wm rows -> brief O X cfg wm rows -> ends cfg states -> listed m states ->
  exists fuel0 words names,
    Forall2 (fun w name => In (name, w) (m_words m)) words names /\
    (words = [] \/ exists s c total,
       path O X (m_graph m) (m_tid2pdf m) tenth wm (rev rows) s c words /\
       ending X (m_graph m) wm true s c total /\ x_is_inf X total = false) /\
    forall fuel, (fuel0 <= fuel)%nat ->
      run_main O X tenth fuel files
        (stt_load O (ieee_trig M) (ieee_init M) junk junk_int of_word unknown files hclg why lm_fuel) header_error [fn; input]
      = Ok (join [32] names ++ [10], 0).
Proof.
  intros lib M junk junk_int junk_char room tenth of_word unknown files why lm_fuel header_error fn m0 blocks O X m hclg HM HL S.
  exact (built_text lib M junk junk_int tenth of_word unknown files hclg why lm_fuel header_error fn m blocks HM HL
           (whole_stored _ O of_word junk_char files room fn m0 S)).
Qed.
