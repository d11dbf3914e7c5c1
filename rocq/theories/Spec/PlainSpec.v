(** Models without surprises: conditions on a graph and on numbers that can be
    checked, from which the conditions of Spec/TotalSpec.v follow. *)
From Coq Require Import ZArith List.
From Verif.Base Require Import Prelude.
From Verif.Model Require Import Arith Fst Decoder Ieee.
From Verif.Spec Require Import DecoderSpec LibmSpec.
Import ListNotations.
Open Scope Z_scope.

(** Numbers of at most 2 ^ 100. *)
Definition moderate (x : float32) : Prop := in32 (1, 100) x.

(** [silent g s n t]: [n] arcs without input labels lead from [s] to [t]. *)
Inductive silent {F} (g : graph F) (s : Z) : Z -> Z -> Prop :=
| silent_none : silent g s 0 s
| silent_arc : forall n t a, silent g s n t -> arc_from g t a -> input_label a = 0 -> silent g s (n + 1) (next_state a).

(** No walk over more than [k] arcs without input labels, so no circle of them. *)
Definition short_silence {F} (g : graph F) (k : Z) : Prop := forall s n t, silent g s n t -> n <= k.

(** The weights of the arcs and of the language model, the acoustic scale and the
    log probabilities are not too large, and the paths not too long. *)
Record moderate_costs {C} (cfg : config float32 C) (wm : option (word_model float32)) (k : Z) (frames : list (list float32)) : Prop := {
  mc_arcs : forall s a, arc_from (c_graph cfg) s a -> moderate (weight a);
  mc_scale : in32 (1, 0) (c_scale cfg);
  mc_rows : Forall (Forall moderate) frames;
  mc_words : forall w l x l' c, wm = Some w -> wm_next w l x = Some (l', c) -> moderate c;
  mc_silence : short_silence (c_graph cfg) k;
  mc_length : (lenZ frames + 1) * (k + 1) <= 4194304
}.

(** All states of a graph, for a decoder without a language model. *)
Definition all_states {F} (g : graph F) : list state := map (fun n => (Z.of_nat n, 0)) (seq 0 (length (g_states g))).

(** The states are few and every one has an arc with an input label; the arcs lead
    to states; the input labels have a place in the table [pdf], and what is
    there is the number of one of [width] log probabilities. *)
Record sound_graph {F} (g : graph F) (pdf : list Z) (width : Z) : Prop := {
  sg_few : lenZ (g_states g) <= 32766;
  sg_start : 0 <= g_start g < lenZ (g_states g);
  sg_next : forall s a, arc_from g s a -> 0 <= next_state a < lenZ (g_states g);
  sg_labels : forall s a, arc_from g s a -> input_label a <> 0 ->
    0 <= input_label a /\ exists p, nth_error pdf (Z.to_nat (input_label a)) = Some p /\ 0 <= p < width;
  sg_alive : forall s, 0 <= s < lenZ (g_states g) -> exists a, arc_from g s a /\ input_label a <> 0
}.
