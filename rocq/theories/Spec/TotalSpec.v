(** What a decoder needs of its graph, its language model and the log
    probabilities never to fail. *)
From Coq Require Import ZArith List Bool.
From Verif.Base Require Import Prelude.
From Verif.Model Require Import Arith Fst Decoder.
From Verif.Spec Require Import DecoderSpec.
Import ListNotations.
Open Scope Z_scope.

Section Total.
Context {F D C : Type}.
Variable O : fops F.
Variable X : xops F D.
Variable cfg : config F C.
Variable wm : option (word_model F).
Variable good : C -> Prop.

(** A state of the graph with one of the language model: the hash value of both
    has to fit into an [int]. *)
Definition proper (s : state) : Prop :=
  0 <= Datatypes.fst s < lenZ (g_states (c_graph cfg)) /\ 0 <= snd s /\
  (589 + Datatypes.fst s) * 31 + snd s <= 2147483647.

(** The language model knows whether it has the words of the arcs of a state. *)
Definition answers (s : state) : Prop :=
  forall a m c, arc_from (c_graph cfg) (Datatypes.fst s) a -> output_label a <> 0 ->
    c_lm cfg = Some m -> good c -> exists r, lm_arc m c (snd s) (output_label a) = Ok r.

(** Where an arc leads. *)
Definition arrival (s : state) (a : arc F) : state :=
  (next_state a, Datatypes.fst (lm_after O wm (snd s) (output_label a))).

(** From the states [from], a frame leads to states of [to] only, which are not
    too many; there is a log probability for every arc. *)
Record frame_fits (logp : list F) (from to : list state) : Prop := {
  ff_few : lenZ to <= 32766;
  ff_from : forall s, In s from -> proper s /\ answers s;
  ff_to : forall s, In s to -> proper s /\ answers s;
  ff_emit : forall s a, In s from -> arc_from (c_graph cfg) (Datatypes.fst s) a -> input_label a <> 0 ->
    In (arrival s a) to /\ exists ac, acoustic O X (c_pdf cfg) (c_scale cfg) logp a ac;
  ff_eps : forall s a, In s to -> arc_from (c_graph cfg) (Datatypes.fst s) a -> input_label a = 0 ->
    In (arrival s a) to
}.

(** The states [R] are all a decoder can come to, and the language model has a
    start. *)
Record run_fits (frames : list (list F)) (R : list state) : Prop := {
  rf_start : In (g_start (c_graph cfg), lm_first wm) R;
  rf_lm : forall m, c_lm cfg = Some m -> exists l, lm_start m = Ok l;
  rf_eps : frame_fits [] [] R;
  rf_frames : forall logp, In logp frames -> frame_fits logp R R
}.

(** Every state of [R] has an arc with an input label. *)
Definition lively (R : list state) : Prop :=
  forall s, In s R -> exists a, arc_from (c_graph cfg) (Datatypes.fst s) a /\ input_label a <> 0.

(** Every path through the graph that consumes the first frames, however many,
    has a finite cost, also before the weight of the language model is added
    for the next frame. *)
Definition finite_costs (frames : list (list F)) : Prop :=
  forall later fs s c ws, rev frames = later ++ fs ->
    path O X (c_graph cfg) (c_pdf cfg) (c_scale cfg) wm fs s c ws ->
    f_finite O c = true /\
    forall later' logp a ac, later = later' ++ [logp] ->
      arc_from (c_graph cfg) (Datatypes.fst s) a -> input_label a <> 0 ->
      acoustic O X (c_pdf cfg) (c_scale cfg) logp a ac ->
      f_finite O (f_add O (f_add O c (weight a)) ac) = true.

(** What a hypothesis needs: the language model has the weight of ending, and
    paths have fewer than 100000 words. *)
Definition ends (R : list state) : Prop :=
  forall s m, In s R -> c_lm cfg = Some m -> exists w, lm_end m (snd s) = Ok w.
Definition brief (frames : list (list F)) : Prop :=
  forall later fs s c ws, rev frames = later ++ fs ->
    path O X (c_graph cfg) (c_pdf cfg) (c_scale cfg) wm fs s c ws -> lenZ ws < 100000.
End Total.
