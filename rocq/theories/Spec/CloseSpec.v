(** Recordings for which the costs of all paths stay close together. *)
From Coq Require Import ZArith List.
From Verif.Base Require Import Prelude.
From Verif.Model Require Import Util Arith SymbolTable Fst Decoder Stt Ieee.
From Verif.Spec Require Import NnetSpec TextSpec DecoderSpec LoadingSpec EndSpec ListSpec ExpSpec.
Import ListNotations.
Open Scope Z_scope.

(** Between [a] and [a + 15]. *)
Definition within15 (a : Z) (x : float32) : Prop := above32 a 0 x /\ below32 (a + 15) 0 x.

(** After any of the frames, the paths lead to at most 30,000 states, and their
    costs lie in an interval of length 15; with a language model, so do the costs
    with an arc that consumes the frame but without the weight of its word. *)
Definition close_costs {C} (L : library) (cfg : config float32 C) (wm : option (word_model float32))
  (frames : list (list float32)) : Prop :=
  let reached := path (ieee L) ieee_wide (c_graph cfg) (c_pdf cfg) (c_scale cfg) wm in
  forall later fs, rev frames = later ++ fs ->
  exists a states, Z.abs a <= 8000000 /\ lenZ states <= 30000 /\
    (forall s c ws, reached fs s c ws -> In s states /\ within15 a c) /\
    (wm = None \/
     forall logp before s l c ws arc ac, fs = logp :: before -> reached before (s, l) c ws ->
       arc_from (c_graph cfg) s arc -> input_label arc <> 0 ->
       acoustic (ieee L) ieee_wide (c_pdf cfg) (c_scale cfg) logp arc ac ->
       within15 a (f_add (ieee L) (f_add (ieee L) c (weight arc)) ac)).

Definition close_wav (L : library) (tenth : float32) (wm : option (word_model float32)) (blocks : list (block Z))
  (rc : recognizer float32 (list (Z * option (arc float32)))) (content : bytes) : Prop :=
  forall rows, wav_rows (ieee L) blocks rc content rows -> close_costs L (utt_config (ieee L) tenth rc) wm rows.

(** [words] are the words of a path of least cost, the final weights included, or
    empty if every path costs infinitely much (or NaN). *)
Definition cheapest (L : library) (g : graph float32) (pdf : list Z) (scale : float32) (wm : option (word_model float32))
  (rows : list (list float32)) (words : list Z) : Prop :=
  let reached := path (ieee L) ieee_wide g pdf scale wm (rev rows) in
  let at_least (bound : float64) := forall s c ws total, reached s c ws -> ending ieee_wide g wm true s c total ->
    x_is_inf ieee_wide total = true \/ x_lt ieee_wide total bound = false in
  (words = [] /\ at_least (x_inf ieee_wide)) \/
  (exists s c total, reached s c words /\ ending ieee_wide g wm true s c total /\ x_is_inf ieee_wide total = false /\ at_least total).

(** [hyp] is the text of such words for the rows of a file. *)
Definition heard_best (L : library) (tenth : float32) (m : model (graph float32)) (wm : option (word_model float32))
  (blocks : list (block Z)) (rc : recognizer float32 (list (Z * option (arc float32)))) (content hyp : bytes) : Prop :=
  exists rows words names, wav_rows (ieee L) blocks rc content rows /\ hyp = join [32] names /\
    Forall2 (fun w name => In (name, w) (m_words m)) words names /\
    cheapest L (m_graph m) (m_tid2pdf m) tenth wm rows words.
