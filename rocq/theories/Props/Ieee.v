(** Decoding in single and double precision (C75; parts of C39-C41, C43, C44
    and C48): [ieee L] and [ieee_wide] are the arithmetic of IEEE 754 on binary32
    and binary64, with the functions of libm and BLAS in [L]. *)
From Coq Require Import ZArith List Bool.
From Verif.Base Require Import Prelude.
From Verif.Spec Require Import DecoderSpec.
From Verif.Model Require Import Arith Vector Pool OLabel Fst Decoder Ieee.
From Verif.Proof Require Import DecoderBase Decoder DecoderMain DecoderCases IeeeLaws IeeeCases.
From Verif.Proof Require DecoderBest DecoderCutoff.
Import ListNotations.
Open Scope Z_scope.

(** * Arithmetic *)
(** Beams are from 0 to 2^64. *)
Theorem ieee_arithmetic : forall L,
  strict (f_lt (ieee L)) /\ strict (x_lt ieee_wide) /\
  well_founded (fun x y => f_lt (ieee L) x y = true) /\ divides_well (ieee L) /\
  ordered_costs (ieee L) ieee_wide (fun c => f_finite (ieee L) c = true) /\
  forall beam, f_nonneg (ieee L) beam = true -> f_lt (ieee L) beam (f_int (ieee L) 18446744073709551616) = true ->
    rounding (ieee L) ieee_wide beam.
Proof.
  exact (fun L => conj (proj1 (ieee_strict L)) (conj (proj2 (ieee_strict L)) (conj (ieee_wf L) (conj (ieee_divides L)
    (conj (ieee_ordered L) (ieee_rounding L)))))).
Qed.
Print Assumptions ieee_arithmetic.

(** * C39 *)
Theorem decoder_hypothesis_is_path_ieee : forall L C (cfg : config float32 C) wm good,
  lm_implements (c_lm cfg) wm good ->
  forall fuel cache frames d, good cache ->
  run_safe (ieee L) ieee_wide cfg fuel cache frames -> decodes (ieee L) ieee_wide cfg collector fuel cache frames d ->
  forall (eos : bool) ws weight, best_path (ieee L) ieee_wide cfg (if eos then end_of_stream d else d) = Ok (ws, weight) ->
  (ws = [] /\ weight = f_zero (ieee L) /\
   forall t x, In t (d_toks d) -> ending ieee_wide (c_graph cfg) wm eos (k_state t) (k_cost t) x ->
     x_is_inf ieee_wide x = true \/ x_lt ieee_wide x (x_inf ieee_wide) = false) \/
  (exists s c total w, In (s, c) (view (d_toks d)) /\
     path (ieee L) ieee_wide (c_graph cfg) (c_pdf cfg) (c_scale cfg) wm (rev frames) s c (rev ws) /\
     ending ieee_wide (c_graph cfg) wm eos s c total /\ final_of (c_graph cfg) (Datatypes.fst s) w /\
     weight = f_add (ieee L) (x_narrow ieee_wide total) w /\
     x_is_inf ieee_wide total = false /\ x_lt ieee_wide total (x_inf ieee_wide) = true /\
     forall t x, In t (d_toks d) -> ending ieee_wide (c_graph cfg) wm eos (k_state t) (k_cost t) x ->
       x_is_inf ieee_wide x = true \/ x_lt ieee_wide x total = false).
Proof. exact (fun L C cfg wm good H => @hypothesis_path _ _ _ (ieee L) ieee_wide cfg wm good H (proj2 (ieee_strict L))). Qed.
Print Assumptions decoder_hypothesis_is_path_ieee.

(** * C40 *)
Theorem decoder_frame_ieee : forall L C (cfg : config float32 C) wm good,
  lm_implements (c_lm cfg) wm good ->
  forall fuel cache frames d, good cache ->
  run_safe (ieee L) ieee_wide cfg fuel cache frames -> decodes (ieee L) ieee_wide cfg collector fuel cache frames d ->
  forall logp d', process (ieee L) ieee_wide cfg collector fuel d logp = Ok (d', true) ->
  NoDup (map k_state (d_toks d')) /\
  (forall s c, In (s, c) (view (d_toks d')) ->
     frame_offer (ieee L) ieee_wide (c_graph cfg) (c_pdf cfg) (c_scale cfg) wm (view (d_toks d)) logp s c) /\
  exists cutoff ab bt next d1,
    get_cutoff (ieee L) ieee_wide cfg (d_toks d) = Ok (cutoff, ab, bt) /\
    process_emitting (ieee L) ieee_wide cfg d logp = Ok (d1, x_narrow ieee_wide next) /\
    (forall s l c a l' lw ac, In ((s, l), c) (view (d_toks d)) -> f_lt (ieee L) (x_narrow ieee_wide cutoff) c = false ->
       arc_from (c_graph cfg) s a -> input_label a <> 0 ->
       acoustic (ieee L) ieee_wide (c_pdf cfg) (c_scale cfg) logp a ac ->
       lm_after (ieee L) wm l (output_label a) = (l', lw) ->
       x_lt ieee_wide next (x_wide ieee_wide (f_add (ieee L) (f_add (ieee L) c (weight a)) ac)) = false ->
       covered (ieee L) (view (d_toks d')) (next_state a, l') (x_narrow ieee_wide (cost_after (ieee L) ieee_wide c (weight a) ac lw))) /\
    closed (ieee L) ieee_wide (c_graph cfg) wm (x_wide ieee_wide (x_narrow ieee_wide next)) (view (d_toks d')).
Proof. exact (fun L C cfg wm good H => @frame _ _ _ (ieee L) ieee_wide cfg wm good H (proj1 (ieee_strict L)) (proj2 (ieee_strict L))). Qed.
Print Assumptions decoder_frame_ieee.

(** * C41 *)
Theorem decoder_expansion_ends_ieee : forall L C (cfg : config float32 C) wm good,
  lm_implements (c_lm cfg) wm good ->
  (forall m c s x, c_lm cfg = Some m -> good c -> lm_arc m c s x <> Fault Fuel) ->
  forall ls, In (lm_first wm) ls -> (forall l x, In l ls -> In (Datatypes.fst (lm_after (ieee L) wm l x)) ls) ->
  forall fuel0 cache frames d, good cache ->
  run_safe (ieee L) ieee_wide cfg fuel0 cache frames -> decodes (ieee L) ieee_wide cfg collector fuel0 cache frames d ->
  forall logp d1 cut, process_emitting (ieee L) ieee_wide cfg d logp = Ok (d1, cut) ->
  exists fuel, process_nonemitting (ieee L) ieee_wide cfg fuel d1 (x_wide ieee_wide cut) <> Fault Fuel /\
    forall fuel', (fuel <= fuel')%nat ->
      process_nonemitting (ieee L) ieee_wide cfg fuel' d1 (x_wide ieee_wide cut) = process_nonemitting (ieee L) ieee_wide cfg fuel d1 (x_wide ieee_wide cut).
Proof. exact (fun L C cfg wm good H H1 ls H2 H3 => @frame_ends _ _ _ (ieee L) ieee_wide cfg wm good H H1 ls H2 H3 (ieee_wf L)). Qed.
Print Assumptions decoder_expansion_ends_ieee.

(** * C41 *)
Theorem decoder_start_ends_ieee : forall L C (cfg : config float32 C) wm good,
  lm_implements (c_lm cfg) wm good ->
  (forall m c s x, c_lm cfg = Some m -> good c -> lm_arc m c s x <> Fault Fuel) ->
  forall ls, In (lm_first wm) ls -> (forall l x, In l ls -> In (Datatypes.fst (lm_after (ieee L) wm l x)) ls) ->
  (forall m, c_lm cfg = Some m -> lm_start m <> Fault Fuel) ->
  forall cache d0, good cache -> new_decoder cache = Ok d0 ->
  exists fuel, initialize (ieee L) ieee_wide cfg fuel d0 <> Fault Fuel /\
    forall fuel', (fuel <= fuel')%nat -> initialize (ieee L) ieee_wide cfg fuel' d0 = initialize (ieee L) ieee_wide cfg fuel d0.
Proof. exact (fun L C cfg wm good H H1 ls H2 H3 => @beginning_ends _ _ _ (ieee L) ieee_wide cfg wm good H H1 ls H2 H3 (ieee_wf L)). Qed.
Print Assumptions decoder_start_ends_ieee.

(** * C43 *)
(** Full statement: without the last hypothesis. It excludes arcs of cost minus
    infinity. *)
Theorem decoder_best_survives_ieee_partial : forall L C (cfg : config float32 C) wm good,
  lm_implements (c_lm cfg) wm good -> f_nonneg (ieee L) (c_beam cfg) = true ->
  f_lt (ieee L) (c_beam cfg) (f_int (ieee L) 18446744073709551616) = true ->
  forall fuel cache frames d, good cache ->
  run_safe (ieee L) ieee_wide cfg fuel cache frames -> decodes (ieee L) ieee_wide cfg collector fuel cache frames d ->
  forall logp d' b, process (ieee L) ieee_wide cfg collector fuel d logp = Ok (d', b) ->
  forall s c a ac, In (s, c) (view (d_toks d)) -> f_finite (ieee L) c = true ->
  (forall s' c', In (s', c') (view (d_toks d)) -> f_lt (ieee L) c' c = false) ->
  arc_from (c_graph cfg) (Datatypes.fst s) a -> input_label a <> 0 ->
  acoustic (ieee L) ieee_wide (c_pdf cfg) (c_scale cfg) logp a ac ->
  f_finite (ieee L) (f_add (ieee L) (f_add (ieee L) c (weight a)) ac) = true ->
  (forall s' c' a' ac', In (s', c') (view (d_toks d)) -> arc_from (c_graph cfg) (Datatypes.fst s') a' ->
     input_label a' <> 0 -> acoustic (ieee L) ieee_wide (c_pdf cfg) (c_scale cfg) logp a' ac' ->
     let total := f_add (ieee L) (f_add (ieee L) c' (weight a')) ac' in
     f_finite (ieee L) total = false -> f_lt (ieee L) total (f_zero (ieee L)) = false) ->
  b = true /\ d_toks d' <> [].
Proof. exact (fun L C cfg wm good H B0 B1 => @success _ _ _ (ieee L) ieee_wide cfg wm good H (ieee_rounding L _ B0 B1)). Qed.
Print Assumptions decoder_best_survives_ieee_partial.

(** * C44 *)
Theorem decoder_cutoff_defined_ieee : forall L C (cfg : config float32 C), forall prev, prev <> [] -> lenZ prev <= 18446744073709551615 ->
  exists r, get_cutoff (ieee L) ieee_wide cfg prev = Ok r.
Proof. exact (fun L C cfg => @DecoderCutoff.get_cutoff_total _ _ _ (ieee L) ieee_wide cfg (ieee_divides L)). Qed.
Print Assumptions decoder_cutoff_defined_ieee.

(** * C48 *)
(** Costs are the rounded ones: the least of them is found. *)
Theorem decoder_finds_best_ieee : forall L C (cfg : config float32 C) wm good,
  lm_implements (c_lm cfg) wm good ->
  forall fuel cache frames d, good cache -> all_costs (ieee L) ieee_wide cfg wm frames (fun c => f_finite (ieee L) c = true) -> run_safe (ieee L) ieee_wide cfg fuel cache frames ->
  run_unpruned (ieee L) ieee_wide cfg wm fuel cache frames -> decodes (ieee L) ieee_wide cfg collector fuel cache frames d ->
  (forall t, In t (d_toks d) ->
     (exists ws, path (ieee L) ieee_wide (c_graph cfg) (c_pdf cfg) (c_scale cfg) wm (rev frames) (k_state t) (k_cost t) ws) /\
     forall c ws, path (ieee L) ieee_wide (c_graph cfg) (c_pdf cfg) (c_scale cfg) wm (rev frames) (k_state t) c ws ->
       f_lt (ieee L) c (k_cost t) = false) /\
  (forall s c ws, path (ieee L) ieee_wide (c_graph cfg) (c_pdf cfg) (c_scale cfg) wm (rev frames) s c ws ->
     exists t, In t (d_toks d) /\ k_state t = s).
Proof. exact (fun L C cfg wm good H => @DecoderBest.decodes_best _ _ _ (ieee L) ieee_wide cfg wm good H (proj1 (ieee_strict L)) _ (ieee_ordered L)). Qed.
Print Assumptions decoder_finds_best_ieee.

(** Weights 0.1, 0.2, 0.3: the costs are 0.3 and a number next to 0.2. *)
Example decoder_case_ieee : forall L, lm_implements (c_lm (config8 L)) None (fun _ => True) /\
  all_costs (ieee L) ieee_wide (config8 L) None frames8 (fun c => f_finite (ieee L) c = true) /\
  run_safe (ieee L) ieee_wide (config8 L) 50 tt frames8 /\
  run_unpruned (ieee L) ieee_wide (config8 L) None 50 tt frames8 /\
  (f_nonneg (ieee L) (c_beam (config8 L)) = true /\
   f_lt (ieee L) (c_beam (config8 L)) (f_int (ieee L) 18446744073709551616) = true) /\
  exists d, decodes (ieee L) ieee_wide (config8 L) collector 50 tt frames8 d /\
  view (d_toks d) = [((1, 0), num 10066330 (-25)); ((2, 0), num 13421774 (-26))] /\
  best_path (ieee L) ieee_wide (config8 L) (end_of_stream d) = Ok ([9; 5], num 15099495 (-24)).
Proof. exact case8. Qed.
Print Assumptions decoder_case_ieee.
