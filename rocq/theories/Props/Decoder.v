(** Properties of the decoder (C39-C48). [O] and [X] are the arithmetic of
    [float] and [double]; no law is assumed unless it is a hypothesis. [cache]
    is the state of the language model's cache, [good] what it has to satisfy;
    a decoder without language model has [wm = None] and any cache. [fuel]
    bounds the steps along arcs without input label. *)
From Coq Require Import ZArith QArith List Lia.
From Verif.Base Require Import Prelude ZMap.
From Verif.Model Require Import Arith Pool OLabel Fst Decoder.
From Verif.Spec Require Import DecoderSpec.
From Verif.Proof Require Import DecoderMain DecoderCases QOps.
From Verif.Proof Require DecoderRun DecoderLm DecoderCutoff DecoderBest.
Import ListNotations.
Open Scope Z_scope.

(** * The language model of the program is one the theorems apply to *)
Theorem decoder_lm : forall F (O : fops F) depth (m : delta_lm F),
  implements (cached_lm O depth m) (delta_words O depth m) (true_cache O depth m) /\
  forall n c, 0 < n <= 2147483647 -> new_cache n = Ok c -> true_cache O depth m c.
Proof. exact (fun F O depth m => conj (DecoderLm.cached_lm_implements F O depth m) (DecoderLm.new_cache_true F O depth m)). Qed.
Print Assumptions decoder_lm.

(** * C39 *)
(** Until a collection frees what is in use (see [run_safe] and
    [decoder_no_early_loss]). The reported weight adds the final weight [w] once
    more, see C46. *)
Theorem decoder_hypothesis_is_path : forall F D C (O : fops F) (X : xops F D) (cfg : config F C) wm good,
  lm_implements (c_lm cfg) wm good -> strict (x_lt X) ->
  forall fuel cache frames d, good cache ->
  run_safe O X cfg fuel cache frames -> decodes O X cfg collector fuel cache frames d ->
  forall (eos : bool) ws weight, best_path O X cfg (if eos then end_of_stream d else d) = Ok (ws, weight) ->
  (ws = [] /\ weight = f_zero O /\
   forall t x, In t (d_toks d) -> ending X (c_graph cfg) wm eos (k_state t) (k_cost t) x ->
     x_is_inf X x = true \/ x_lt X x (x_inf X) = false) \/
  (exists s c total w, In (s, c) (view (d_toks d)) /\
     path O X (c_graph cfg) (c_pdf cfg) (c_scale cfg) wm (rev frames) s c (rev ws) /\
     ending X (c_graph cfg) wm eos s c total /\ final_of (c_graph cfg) (Datatypes.fst s) w /\
     weight = f_add O (x_narrow X total) w /\
     x_is_inf X total = false /\ x_lt X total (x_inf X) = true /\
     forall t x, In t (d_toks d) -> ending X (c_graph cfg) wm eos (k_state t) (k_cost t) x ->
       x_is_inf X x = true \/ x_lt X x total = false).
Proof. exact @hypothesis_path. Qed.
Print Assumptions decoder_hypothesis_is_path.

Theorem decoder_no_early_loss : forall F D C (O : fops F) (X : xops F D) (cfg : config F C) wm good,
  lm_implements (c_lm cfg) wm good ->
  forall fuel cache frames, good cache -> lenZ frames <= 20 -> run_safe O X cfg fuel cache frames.
Proof. exact @DecoderRun.safe_20. Qed.
Print Assumptions decoder_no_early_loss.

(** Two frames; the best token is on another state at the end of the stream. *)
Example decoder_case_path :
  lm_implements (c_lm config1) None (fun _ => True) /\ strict (x_lt twide) /\
  run_safe tops twide config1 50 tt frames1 /\
  exists d, decodes tops twide config1 collector 50 tt frames1 d /\
    view (d_toks d) = [((1, 0), Num 3); ((2, 0), Num 2)] /\
    best_path tops twide config1 d = Ok ([9; 9; 5], Inf) /\
    best_path tops twide config1 (end_of_stream d) = Ok ([9; 5], Num 9).
Proof. exact path_case. Qed.

(** With a language model and its cache. *)
Example decoder_case_lm : exists c d, new_cache 7 = Ok c /\
  lm_implements (c_lm config2) (Some (delta_words tops 5 model2)) (true_cache tops 5 model2) /\
  decodes tops twide config2 collector 50 c [[Num (-1)]; [Num (-2)]; [Num (-1)]] d /\
  view (d_toks d) = [((1, 2), Num 6); ((0, 2), Num 6)] /\
  best_path tops twide config2 d = Ok ([5], Num 7).
Proof. exact lm_case. Qed.

(** * C40 *)
(** A token offered to the beam, whose label is one the decoder holds: nothing
    but the token of its state changes, which keeps the least cost. *)
Theorem decoder_keeps_better : forall F D C (O : fops F) (X : xops F D) (cfg : config F C) wm good,
  lm_implements (c_lm cfg) wm good -> forall fuel cache frames d, good cache ->
  run_safe O X cfg fuel cache frames -> decodes O X cfg collector fuel cache frames d ->
  forall t s l c d' b, In t (d_toks d) -> insert_tok O d s l (k_olabel t) c = Ok (d', b) ->
  view (d_toks d') = offered (f_lt O) (view (d_toks d)) s c.
Proof. exact @insertion. Qed.
Print Assumptions decoder_keeps_better.

(** After a frame there is one token per state, its cost was offered, and it
    is not worse than any cost offered within the cutoffs: [cutoff] that of the
    tokens before the frame, [next] that of costs in the frame. *)
Theorem decoder_frame : forall F D C (O : fops F) (X : xops F D) (cfg : config F C) wm good,
  lm_implements (c_lm cfg) wm good -> strict (f_lt O) -> strict (x_lt X) ->
  forall fuel cache frames d, good cache ->
  run_safe O X cfg fuel cache frames -> decodes O X cfg collector fuel cache frames d ->
  forall logp d', process O X cfg collector fuel d logp = Ok (d', true) ->
  NoDup (map k_state (d_toks d')) /\
  (forall s c, In (s, c) (view (d_toks d')) ->
     frame_offer O X (c_graph cfg) (c_pdf cfg) (c_scale cfg) wm (view (d_toks d)) logp s c) /\
  exists cutoff ab bt next d1,
    get_cutoff O X cfg (d_toks d) = Ok (cutoff, ab, bt) /\
    process_emitting O X cfg d logp = Ok (d1, x_narrow X next) /\
    (forall s l c a l' lw ac, In ((s, l), c) (view (d_toks d)) -> f_lt O (x_narrow X cutoff) c = false ->
       arc_from (c_graph cfg) s a -> input_label a <> 0 ->
       acoustic O X (c_pdf cfg) (c_scale cfg) logp a ac ->
       lm_after O wm l (output_label a) = (l', lw) ->
       x_lt X next (x_wide X (f_add O (f_add O c (weight a)) ac)) = false ->
       covered O (view (d_toks d')) (next_state a, l') (x_narrow X (cost_after O X c (weight a) ac lw))) /\
    closed O X (c_graph cfg) wm (x_wide X (x_narrow X next)) (view (d_toks d')).
Proof. exact @frame. Qed.
Print Assumptions decoder_frame.

(** * C41 *)
Theorem decoder_expansion_ends : forall F D C (O : fops F) (X : xops F D) (cfg : config F C) wm good,
  lm_implements (c_lm cfg) wm good ->
  (forall m c s x, c_lm cfg = Some m -> good c -> lm_arc m c s x <> Fault Fuel) ->
  forall ls, In (lm_first wm) ls -> (forall l x, In l ls -> In (Datatypes.fst (lm_after O wm l x)) ls) ->
  well_founded (fun x y => f_lt O x y = true) ->
  forall fuel0 cache frames d, good cache ->
  run_safe O X cfg fuel0 cache frames -> decodes O X cfg collector fuel0 cache frames d ->
  forall logp d1 cut, process_emitting O X cfg d logp = Ok (d1, cut) ->
  exists fuel, process_nonemitting O X cfg fuel d1 (x_wide X cut) <> Fault Fuel /\
    forall fuel', (fuel <= fuel')%nat ->
      process_nonemitting O X cfg fuel' d1 (x_wide X cut) = process_nonemitting O X cfg fuel d1 (x_wide X cut).
Proof. exact @frame_ends. Qed.
Print Assumptions decoder_expansion_ends.

Theorem decoder_start_ends : forall F D C (O : fops F) (X : xops F D) (cfg : config F C) wm good,
  lm_implements (c_lm cfg) wm good ->
  (forall m c s x, c_lm cfg = Some m -> good c -> lm_arc m c s x <> Fault Fuel) ->
  forall ls, In (lm_first wm) ls -> (forall l x, In l ls -> In (Datatypes.fst (lm_after O wm l x)) ls) ->
  well_founded (fun x y => f_lt O x y = true) ->
  (forall m, c_lm cfg = Some m -> lm_start m <> Fault Fuel) ->
  forall cache d0, good cache -> new_decoder cache = Ok d0 ->
  exists fuel, initialize O X cfg fuel d0 <> Fault Fuel /\
    forall fuel', (fuel <= fuel')%nat -> initialize O X cfg fuel' d0 = initialize O X cfg fuel d0.
Proof. exact @beginning_ends. Qed.
Print Assumptions decoder_start_ends.

(** A cycle of weight -2 of arcs without input label; costs saturate at -3. *)
Example decoder_case_cycle :
  well_founded (fun x y => f_lt sops x y = true) /\ strict (f_lt sops) /\
  exists d, decodes sops swide config3 collector 50 tt [[-5]; [1]] d /\
    view (d_toks d) = [((0, 0), -3); ((1, 0), -3)].
Proof. exact (conj sat_wf (conj sat_strict run3)). Qed.

(** * C42 *)
(** Full statement: a frame that no token survives is reported as a failure, and
    further frames have defined results. Missing: the latter, which is
    false. *)
Theorem decoder_dead_end_partial : forall F D C (O : fops F) (X : xops F D) (cfg : config F C) fuel
  (d : decoder F C) logp d' b,
  process O X cfg collector fuel d logp = Ok (d', b) -> d_toks d' = [] ->
  b = false /\ best_path O X cfg d' = Ok ([], f_zero O) /\
  best_path O X cfg (end_of_stream d') = Ok ([], f_zero O) /\
  forall logp', process O X cfg collector fuel d' logp' = Fault Undef.
Proof. exact dead_end. Qed.
Print Assumptions decoder_dead_end_partial.

Theorem decoder_dead_end_refuted : exists d d',
  decodes tops twide config4 collector 50 tt [[Num 0]] d /\
  process tops twide config4 collector 50 d [Num 0] = Ok (d', false) /\ d_toks d' = [] /\
  process tops twide config4 collector 50 d' [Num 0] = Fault Undef.
Proof. exact run4. Qed.
Print Assumptions decoder_dead_end_refuted.

(** * C43 *)
(** Full statement: without the last hypothesis. It excludes arcs of cost minus
    infinity. *)
Theorem decoder_best_survives_partial : forall F D C (O : fops F) (X : xops F D) (cfg : config F C) wm good,
  lm_implements (c_lm cfg) wm good -> rounding O X (c_beam cfg) ->
  forall fuel cache frames d, good cache ->
  run_safe O X cfg fuel cache frames -> decodes O X cfg collector fuel cache frames d ->
  forall logp d' b, process O X cfg collector fuel d logp = Ok (d', b) ->
  forall s c a ac, In (s, c) (view (d_toks d)) -> f_finite O c = true ->
  (forall s' c', In (s', c') (view (d_toks d)) -> f_lt O c' c = false) ->
  arc_from (c_graph cfg) (Datatypes.fst s) a -> input_label a <> 0 ->
  acoustic O X (c_pdf cfg) (c_scale cfg) logp a ac ->
  f_finite O (f_add O (f_add O c (weight a)) ac) = true ->
  (forall s' c' a' ac', In (s', c') (view (d_toks d)) -> arc_from (c_graph cfg) (Datatypes.fst s') a' ->
     input_label a' <> 0 -> acoustic O X (c_pdf cfg) (c_scale cfg) logp a' ac' ->
     let total := f_add O (f_add O c' (weight a')) ac' in
     f_finite O total = false -> f_lt O total (f_zero O) = false) ->
  b = true /\ d_toks d' <> [].
Proof. exact @success. Qed.
Print Assumptions decoder_best_survives_partial.

(** Rationals with infinities and NaN; arcs of cost infinity and NaN. *)
Example decoder_case_success : rounding qops qwide (c_beam config6) /\
  exists d d', decodes qops qwide config6 collector 50 tt [] d /\
  view (d_toks d) = [((0, 0), Fin 0); ((1, 0), Fin 3)] /\
  process qops qwide config6 collector 50 d [Fin (-1)] = Ok (d', true) /\
  view (d_toks d') = [((0, 0), Fin 3); ((1, 0), Fin 6)].
Proof. exact (conj (ext_rounding 16 ltac:(discriminate)) run6). Qed.

(** The only token is on state 0, which has an arc of weight 2 to itself, and
    another of weight minus infinity. *)
Theorem decoder_best_survives_refuted : rounding qops qwide (c_beam config5) /\
  exists d d', decodes qops qwide config5 collector 50 tt [] d /\
  view (d_toks d) = [((0, 0), Fin 0)] /\ arc_from graph5 0 (mk_arc 0 1 5 (Fin 2)) /\
  acoustic qops qwide [0; 0] (Fin 1) [Fin (-1)] (mk_arc 0 1 5 (Fin 2)) (Fin 1) /\
  process qops qwide config5 collector 50 d [Fin (-1)] = Ok (d', false).
Proof. exact lost5. Qed.
Print Assumptions decoder_best_survives_refuted.

(** * C44 *)
(** An empty sample or an index outside it would be a fault. *)
Theorem decoder_cutoff_defined : forall F D C (O : fops F) (X : xops F D) (cfg : config F C), divides_well O ->
  forall prev, prev <> [] -> lenZ prev <= 18446744073709551615 ->
  exists r, get_cutoff O X cfg prev = Ok r.
Proof. exact @DecoderCutoff.get_cutoff_total. Qed.
Print Assumptions decoder_cutoff_defined.

Example decoder_case_cutoff : divides_well qops /\
  forall t : token ext, lenZ (repeat t (Z.to_nat 40000)) = 40000.
Proof. exact (conj ext_divides_well long_beam). Qed.

(** * C45 *)
(** Full statement: without [run_safe]. *)
Theorem decoder_collections_partial : forall F D C (O : fops F) (X : xops F D) (cfg : config F C)
  fuel cache frames d0 d1,
  new_decoder cache = Ok d0 -> initialize O X cfg fuel d0 = Ok d1 -> run_safe O X cfg fuel cache frames ->
  match process_all O X cfg collector fuel d1 frames, process_all O X cfg keep_all fuel d1 frames with
  | Ok (x, b), Ok (y, b') =>
      b = b' /\ view (d_toks x) = view (d_toks y) /\ best_path O X cfg x = best_path O X cfg y /\
      best_path O X cfg (end_of_stream x) = best_path O X cfg (end_of_stream y)
  | Fault f, Fault f' => f = f'
  | _, _ => False
  end.
Proof. exact collections_unseen. Qed.
Print Assumptions decoder_collections_partial.

(** After 21 frames the word 5 has become -1. *)
Theorem decoder_collections_refuted : exists d d',
  decodes tops twide config7 collector 50 tt (repeat [Num 0] 21) d /\
  decodes tops twide config7 keep_all 50 tt (repeat [Num 0] 21) d' /\
  best_path tops twide config7 (end_of_stream d) = Ok ([7; -1], Num 0) /\
  best_path tops twide config7 (end_of_stream d') = Ok ([7; 5], Num 0).
Proof. exact run7. Qed.
Print Assumptions decoder_collections_refuted.

(** * C46 *)
(** Full statement: without the hypothesis that the final weights of the graph
    change nothing when they are added. *)
Theorem decoder_reported_cost_partial : forall F D C (O : fops F) (X : xops F D) (cfg : config F C) wm (good : C -> Prop),
  lm_implements (c_lm cfg) wm good -> strict (x_lt X) ->
  (forall s w x, final_of (c_graph cfg) s w -> f_add O x w = x) ->
  forall fuel cache frames d, good cache ->
  run_safe O X cfg fuel cache frames -> decodes O X cfg collector fuel cache frames d ->
  forall ws weight, best_path O X cfg (end_of_stream d) = Ok (ws, weight) ->
  (ws = [] /\ weight = f_zero O) \/
  exists s c total, path O X (c_graph cfg) (c_pdf cfg) (c_scale cfg) wm (rev frames) s c (rev ws) /\
    ending X (c_graph cfg) wm true s c total /\ weight = x_narrow X total.
Proof. exact neutral_cost. Qed.
Print Assumptions decoder_reported_cost_partial.

Example decoder_case_neutral : (forall s w x, final_of (c_graph config4) s w -> f_add tops x w = x) /\
  exists d, decodes tops twide config4 collector 50 tt [[Num 0]] d /\
    best_path tops twide config4 (end_of_stream d) = Ok ([5], Num 2).
Proof. exact neutral4. Qed.

(** The path of cost 3 ends in a state of final weight 3; 9 is reported. *)
Theorem decoder_reported_cost_refuted : exists d total,
  decodes tops twide config1 collector 50 tt frames1 d /\
  In ((1, 0), Num 3) (view (d_toks d)) /\
  ending twide graph1 None true (1, 0) (Num 3) total /\ x_narrow twide total = Num 6 /\
  (forall s c total', In (s, c) (view (d_toks d)) -> ending twide graph1 None true s c total' ->
     x_lt twide total' total = false) /\
  best_path tops twide config1 (end_of_stream d) = Ok ([9; 5], Num 9).
Proof. exact twice1. Qed.
Print Assumptions decoder_reported_cost_refuted.

(** * C47 *)
(** Full statement: of [Initialize] of any decoder. Proved of a new one. *)
Theorem decoder_initialize_partial : forall F D C (O : fops F) (X : xops F D) (cfg : config F C) wm good,
  lm_implements (c_lm cfg) wm good -> strict (f_lt O) ->
  forall fuel cache d, good cache -> decodes O X cfg collector fuel cache [] d ->
  closed O X (c_graph cfg) wm (x_inf X) (view (d_toks d)) /\
  covered O (view (d_toks d)) (g_start (c_graph cfg), lm_first wm) (f_zero O) /\
  NoDup (map k_state (d_toks d)) /\
  forall t, In t (d_toks d) ->
    exists ws, path O X (c_graph cfg) (c_pdf cfg) (c_scale cfg) wm [] (k_state t) (k_cost t) ws.
Proof. exact @beginning. Qed.
Print Assumptions decoder_initialize_partial.

(** Initialising twice never succeeds. *)
Theorem decoder_initialize_refuted : forall F D C (O : fops F) (X : xops F D) (cfg : config F C) wm good,
  lm_implements (c_lm cfg) wm good -> strict (f_lt O) -> forall fuel fuel' (cache : C) d0 d, good cache -> new_decoder cache = Ok d0 ->
  initialize O X cfg fuel d0 = Ok d -> exists f, initialize O X cfg fuel' d = Fault f /\ f <> Fuel.
Proof. exact @DecoderBest.initialize_twice. Qed.
Print Assumptions decoder_initialize_refuted.

Example decoder_case_initialize : exists d0 d1, new_decoder tt = Ok d0 /\
  initialize tops twide config1 50 d0 = Ok d1 /\ initialize tops twide config1 50 d1 = Fault Undef.
Proof. exact again1. Qed.

(** * C48 *)
Theorem decoder_finds_best : forall F D C (O : fops F) (X : xops F D) (cfg : config F C) wm good,
  lm_implements (c_lm cfg) wm good -> strict (f_lt O) -> forall ok, ordered_costs O X ok ->
  forall fuel cache frames d, good cache -> all_costs O X cfg wm frames ok -> run_safe O X cfg fuel cache frames ->
  run_unpruned O X cfg wm fuel cache frames -> decodes O X cfg collector fuel cache frames d ->
  (forall t, In t (d_toks d) ->
     (exists ws, path O X (c_graph cfg) (c_pdf cfg) (c_scale cfg) wm (rev frames) (k_state t) (k_cost t) ws) /\
     forall c ws, path O X (c_graph cfg) (c_pdf cfg) (c_scale cfg) wm (rev frames) (k_state t) c ws ->
       f_lt O c (k_cost t) = false) /\
  (forall s c ws, path O X (c_graph cfg) (c_pdf cfg) (c_scale cfg) wm (rev frames) s c ws ->
     exists t, In t (d_toks d) /\ k_state t = s).
Proof. exact @DecoderBest.decodes_best. Qed.
Print Assumptions decoder_finds_best.

Example decoder_case_best : ordered_costs tops twide (fun _ => True) /\ run_safe tops twide config1 50 tt frames1 /\
  run_unpruned tops twide config1 None 50 tt frames1 /\
  exists d, decodes tops twide config1 collector 50 tt frames1 d /\
    view (d_toks d) = [((1, 0), Num 3); ((2, 0), Num 2)].
Proof. exact best_case. Qed.
