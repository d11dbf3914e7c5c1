(** Language models without surprises: conditions on a graph and a language model
    that can be checked (Spec/PlainSpec.v has those without one). *)
From Coq Require Import ZArith List.
From Verif.Base Require Import Prelude.
From Verif.Model Require Import Arith Fst Decoder Ieee.
From Verif.Spec Require Import FstSpec DecoderSpec LibmSpec.
Import ListNotations.
Open Scope Z_scope.

(** A back-off model without circles of back-off arcs and with one arc for a word
    in state 0; it and the graph have few states together; the words of the graph
    and the mark of the end have costs in the small model. *)
Record sound_lm {F} (g : graph F) (small : list F) (t : transducer F) (bos eos : Z) : Prop := {
  sl_model : back_off_model t;
  sl_table : one_arc_per_word t;
  sl_cycle : no_back_off_cycle t;
  sl_few : lenZ (g_states g) * lenZ (t_states t) <= 32766;
  sl_costs : lenZ small <= 2000000000;
  sl_words : forall s a, arc_from g s a -> 0 <= output_label a < lenZ small;
  sl_bos : 0 < bos <= 2147483647;
  sl_eos : 0 < eos < lenZ small
}.

(** The states of a graph, each with every state of the language model. *)
Definition all_pairs {F} (g : graph F) (t : transducer F) : list state :=
  list_prod (map Z.of_nat (seq 0 (length (g_states g)))) (map Z.of_nat (seq 0 (length (t_states t)))).

(** The weights of the arcs and the costs of the words are at most 2 ^ 80. *)
Definition moderate_lm (small : list float32) (t : transducer float32) : Prop :=
  Forall (in32 (1, 80)) small /\
  Forall (fun st => Forall (fun a => in32 (1, 80) (weight a)) (snd st)) (t_states t).

(** Words weighted by back-off in the large model [t] less their costs in the small
    one. *)
Record back_off_words {F} (O : fops F) (small : list F) (t : transducer F) (bos eos : Z) (wm : word_model F) : Prop := {
  bw_start : (exists a, lookup_word O t bos (t_start t) (Some a) /\ wm_start wm = next_state a) \/
    (lookup_word O t bos (t_start t) None /\ wm_start wm = t_start t);
  bw_next : forall s x, is_state t s -> 0 < x < lenZ small ->
    (exists a c, lookup_word O t x s (Some a) /\ nth_error small (Z.to_nat x) = Some c /\
       wm_next wm s x = Some (next_state a, f_sub O (weight a) c)) \/
    (lookup_word O t x s None /\ wm_next wm s x = None);
  bw_final : forall s, is_state t s ->
    (exists a f c, lookup_word O t eos s (Some a) /\ lookup_final O t (next_state a) f /\ nth_error small (Z.to_nat eos) = Some c /\
       wm_end wm s = f_sub O (f_add O f (weight a)) c) \/
    (lookup_word O t eos s None /\ wm_end wm s = f_inf O)
}.
