(** Graphs and audio in which collections find at most one word per path. *)
From Coq Require Import ZArith List.
From Verif.Base Require Import Prelude.
From Verif.Model Require Import Arith Fst Decoder.
From Verif.Spec Require Import DecoderSpec.
Import ListNotations.
Open Scope Z_scope.

(** Walks through a graph from its start, with the words on their way. *)
Inductive walk {F} (g : graph F) : Z -> list Z -> Prop :=
| walk_start : walk g (g_start g) []
| walk_arc : forall s ws a, walk g s ws -> arc_from g s a -> walk g (next_state a) (add_word (output_label a) ws).

(** No walk has two words, as in a graph of commands to choose from. *)
Definition one_word {F} (g : graph F) : Prop := forall s ws, walk g s ws -> lenZ ws <= 1.

(** No path over the first 21, 41, 61, ... frames has two words. *)
Definition slow_words {F D C} (O : fops F) (X : xops F D) (cfg : config F C) (wm : option (word_model F))
  (frames : list (list F)) : Prop :=
  forall later fs s c ws, rev frames = later ++ fs -> 20 < lenZ fs -> lenZ fs mod 20 = 1 ->
    path O X (c_graph cfg) (c_pdf cfg) (c_scale cfg) wm fs s c ws -> lenZ ws <= 1.
