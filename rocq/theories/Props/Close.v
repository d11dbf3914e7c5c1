(** Recordings for which the costs of all paths stay close together: the decoder
    finds the best path, and the program prints its words (C111). *)
From Coq Require Import ZArith Reals String List.
From Verif.Base Require Import Prelude.
From Verif.Spec Require Import AudioSpec PcmSpec TextSpec NnetSpec FbankSpec DecoderSpec SttSpec TotalSpec SessionSpec LibmSpec ValueSpec LoadingSpec ProgramSpec EndSpec ListSpec ExpSpec LmPlainSpec CheckedSpec CloseSpec.
From Verif.Model Require Import Util Arith Fbank Srfft FbankInit Pool Fst Decoder Stt Main Loading Ieee IeeeFbank.
From Verif.Proof Require Import CloseCosts CloseUse CloseChecked.
From Verif.Proof Require EndCases ListCases FiniteCases IeeeCases CloseCases ExpCases CloseCheckedCases.
Import ListNotations.
Open Scope Z_scope.

(** No state is left out: the tokens are those of the cheapest paths to all
    states that paths lead to. *)
Theorem close_finds_best : forall C L (cfg : config float32 C) wm good,
  lm_implements (c_lm cfg) wm good -> c_beam cfg = f_int (ieee L) 16 ->
  forall fuel cache frames d, good cache -> close_costs L cfg wm frames ->
  run_safe (ieee L) ieee_wide cfg fuel cache frames -> decodes (ieee L) ieee_wide cfg collector fuel cache frames d ->
  (forall t, In t (d_toks d) ->
     (exists ws, path (ieee L) ieee_wide (c_graph cfg) (c_pdf cfg) (c_scale cfg) wm (rev frames) (k_state t) (k_cost t) ws) /\
     forall c ws, path (ieee L) ieee_wide (c_graph cfg) (c_pdf cfg) (c_scale cfg) wm (rev frames) (k_state t) c ws ->
       f_lt (ieee L) c (k_cost t) = false) /\
  (forall s c ws, path (ieee L) ieee_wide (c_graph cfg) (c_pdf cfg) (c_scale cfg) wm (rev frames) s c ws ->
     exists t, In t (d_toks d) /\ k_state t = s).
Proof. exact @close_best. Qed.
Print Assumptions close_finds_best.

(** The words of the hypothesis (last word first) are those of a path that is
    cheapest with its final weight, before or after the end of the stream. *)
Theorem close_best_hypothesis : forall C L (cfg : config float32 C) wm good,
  lm_implements (c_lm cfg) wm good -> c_beam cfg = f_int (ieee L) 16 ->
  forall fuel cache frames d, good cache -> close_costs L cfg wm frames ->
  run_safe (ieee L) ieee_wide cfg fuel cache frames -> decodes (ieee L) ieee_wide cfg collector fuel cache frames d ->
  forall (eos : bool) ws weight, best_path (ieee L) ieee_wide cfg (if eos then end_of_stream d else d) = Ok (ws, weight) ->
  let reached := path (ieee L) ieee_wide (c_graph cfg) (c_pdf cfg) (c_scale cfg) wm (rev frames) in
  (ws = [] /\ weight = f_zero (ieee L) /\
   forall s c ws' x, reached s c ws' -> ending ieee_wide (c_graph cfg) wm eos s c x ->
     x_is_inf ieee_wide x = true \/ x_lt ieee_wide x (x_inf ieee_wide) = false) \/
  (exists s c total, reached s c (rev ws) /\ ending ieee_wide (c_graph cfg) wm eos s c total /\ x_is_inf ieee_wide total = false /\
     forall s' c' ws' x, reached s' c' ws' -> ending ieee_wide (c_graph cfg) wm eos s' c' x ->
       x_is_inf ieee_wide x = true \/ x_lt ieee_wide x total = false).
Proof. exact @close_hypothesis. Qed.
Print Assumptions close_best_hypothesis.

(** The decoder of the case of C48. *)
Example close_case : forall L,
  lm_implements (c_lm (IeeeCases.config8 L)) None (fun _ => True) /\ c_beam (IeeeCases.config8 L) = f_int (ieee L) 16 /\
  close_costs L (IeeeCases.config8 L) None IeeeCases.frames8 /\
  run_safe (ieee L) ieee_wide (IeeeCases.config8 L) 50 tt IeeeCases.frames8 /\
  exists d, decodes (ieee L) ieee_wide (IeeeCases.config8 L) collector 50 tt IeeeCases.frames8 d /\
  view (d_toks d) = [((1, 0), IeeeCases.num 10066330 (-25)); ((2, 0), IeeeCases.num 13421774 (-26))] /\
  best_path (ieee L) ieee_wide (IeeeCases.config8 L) (end_of_stream d) = Ok ([9; 5], IeeeCases.num 15099495 (-24)).
Proof. exact CloseCases.close_case8. Qed.

(** What the program prints, where a recording is decoded at all (C86). *)
Theorem close_prints : forall lib M junk junk_int tenth of_word unknown files hclg why lm_fuel header_error fn m blocks,
  let O := ieee lib in let X := ieee_wide in
  libm M -> close_logf M -> stored O of_word files hclg fn m -> network_fits m blocks ->
  forall wm good, model_words O of_word lm_fuel m wm good ->
  exists rc, made_of O of_word (ieee_trig M) (ieee_init M) junk junk_int lm_fuel m rc /\
  forall input content, ends_in input (lit ".wav") -> files input = Some content ->
  decodable O X tenth m wm good blocks rc content -> close_wav lib tenth wm blocks rc content ->
  exists fuel0 hyp, heard_best lib tenth m wm blocks rc content hyp /\
    forall fuel, (fuel0 <= fuel)%nat ->
      run_main O X tenth fuel files
        (stt_load O (ieee_trig M) (ieee_init M) junk junk_int of_word unknown files hclg why lm_fuel) header_error [fn; input]
      = Ok (hyp ++ [10], 0).
Proof. exact best_file. Qed.
Print Assumptions close_prints.

(** A list of recordings. *)
Theorem close_list_prints : forall lib M junk junk_int tenth of_word unknown files hclg why lm_fuel header_error fn m blocks,
  let O := ieee lib in let X := ieee_wide in
  libm M -> close_logf M -> stored O of_word files hclg fn m -> network_fits m blocks ->
  forall wm good, model_words O of_word lm_fuel m wm good ->
  exists rc, made_of O of_word (ieee_trig M) (ieee_init M) junk junk_int lm_fuel m rc /\
  forall input entries,
  ~ ends_in input (lit ".wav") -> 4 <= lenZ input -> files input = Some (list_file entries) -> Forall entry_ok entries ->
  Forall (fun e => exists content, files (snd e) = Some content /\ decodable O X tenth m wm good blocks rc content /\
    close_wav lib tenth wm blocks rc content) entries ->
  exists fuel0 hyps,
    Forall2 (fun e hyp => exists content, files (snd e) = Some content /\ heard_best lib tenth m wm blocks rc content hyp) entries hyps /\
    forall fuel, (fuel0 <= fuel)%nat ->
      run_main O X tenth fuel files
        (stt_load O (ieee_trig M) (ieee_init M) junk junk_int of_word unknown files hclg why lm_fuel) header_error [fn; input]
      = Ok (printed entries hyps, 0).
Proof. exact best_list. Qed.
Print Assumptions close_list_prints.

(** The model and the two files of the case of C90; the other hypotheses are
    those of [list_case] in Props/EndList.v. *)
Example close_list_case : forall M junk junk_int lm_fuel rc, libm M ->
  made_of (ieee FiniteCases.rough) EndCases.bits32 (ieee_trig M) (ieee_init M) junk junk_int lm_fuel EndCases.model11 rc ->
  Forall (fun e => exists content, ListCases.files13 (snd e) = Some content /\
    decodable (ieee FiniteCases.rough) ieee_wide (IeeeCases.tenth 1) EndCases.model11 None (fun _ => True) EndCases.blocks11 rc content /\
    close_wav FiniteCases.rough (IeeeCases.tenth 1) None EndCases.blocks11 rc content) ListCases.entries13.
Proof. exact CloseCases.close_list13. Qed.

(** Models that have been checked (C110): any recording of limited length whose
    costs stay close together. *)
Theorem checked_best_prints : forall lib M junk junk_int tenth of_word unknown files hclg why lm_fuel header_error fn m blocks k ls,
  let O := ieee lib in let X := ieee_wide in
  libm M -> close_logf M -> sane_log lib -> sane_exp lib ->
  stored O of_word files hclg fn m -> checked_model lib of_word lm_fuel tenth m blocks k ls ->
  exists rc wm, made_of O of_word (ieee_trig M) (ieee_init M) junk junk_int lm_fuel m rc /\ weights_of O of_word m wm /\
  forall input content, ends_in input (lit ".wav") -> files input = Some content ->
  short_wav m k content -> close_wav lib tenth wm blocks rc content ->
  exists fuel0 hyp, heard_best lib tenth m wm blocks rc content hyp /\
    forall fuel, (fuel0 <= fuel)%nat ->
      run_main O X tenth fuel files
        (stt_load O (ieee_trig M) (ieee_init M) junk junk_int of_word unknown files hclg why lm_fuel) header_error [fn; input]
      = Ok (hyp ++ [10], 0).
Proof. exact checked_best_file. Qed.
Print Assumptions checked_best_prints.

Theorem checked_best_list_prints : forall lib M junk junk_int tenth of_word unknown files hclg why lm_fuel header_error fn m blocks k ls,
  let O := ieee lib in let X := ieee_wide in
  libm M -> close_logf M -> sane_log lib -> sane_exp lib ->
  stored O of_word files hclg fn m -> checked_model lib of_word lm_fuel tenth m blocks k ls ->
  exists rc wm, made_of O of_word (ieee_trig M) (ieee_init M) junk junk_int lm_fuel m rc /\ weights_of O of_word m wm /\
  forall input entries,
  ~ ends_in input (lit ".wav") -> 4 <= lenZ input -> files input = Some (list_file entries) -> Forall entry_ok entries ->
  Forall (fun e => exists content, files (snd e) = Some content /\ short_wav m k content /\ close_wav lib tenth wm blocks rc content) entries ->
  exists fuel0 hyps,
    Forall2 (fun e hyp => exists content, files (snd e) = Some content /\ heard_best lib tenth m wm blocks rc content hyp) entries hyps /\
    forall fuel, (fuel0 <= fuel)%nat ->
      run_main O X tenth fuel files
        (stt_load O (ieee_trig M) (ieee_init M) junk junk_int of_word unknown files hclg why lm_fuel) header_error [fn; input]
      = Ok (printed entries hyps, 0).
Proof. exact checked_best_list. Qed.
Print Assumptions checked_best_list_prints.

(** A model with the words "so" and "what" in files, and a list of two files of one
    and three frames. *)
Example checked_best_case :
  sane_log ExpCases.loud /\ sane_exp ExpCases.loud /\
  stored (ieee ExpCases.loud) EndCases.bits32 CloseCheckedCases.files20 EndCases.hclg11 (lit "d/m") CloseCheckedCases.model20 /\
  (forall lm_fuel, checked_model ExpCases.loud EndCases.bits32 lm_fuel (IeeeCases.tenth 1) CloseCheckedCases.model20
     (ExpCases.blocks17 ExpCases.mild_word) 1 ExpCases.before17) /\
  (~ ends_in (lit "l.scp") (lit ".wav") /\ 4 <= lenZ (lit "l.scp") /\
   CloseCheckedCases.files20 (lit "l.scp") = Some (list_file ListCases.entries13) /\ Forall entry_ok ListCases.entries13 /\
   forall M junk junk_int lm_fuel rc wm, libm M ->
   made_of (ieee ExpCases.loud) EndCases.bits32 (ieee_trig M) (ieee_init M) junk junk_int lm_fuel CloseCheckedCases.model20 rc ->
   weights_of (ieee ExpCases.loud) EndCases.bits32 CloseCheckedCases.model20 wm ->
   Forall (fun e => exists content, CloseCheckedCases.files20 (snd e) = Some content /\ short_wav CloseCheckedCases.model20 1 content /\
     close_wav ExpCases.loud (IeeeCases.tenth 1) wm (ExpCases.blocks17 ExpCases.mild_word) rc content) ListCases.entries13).
Proof.
  exact (conj ExpCases.loud_log (conj ExpCases.loud_sane (conj CloseCheckedCases.stored20 (conj CloseCheckedCases.checked20 CloseCheckedCases.list20)))).
Qed.
