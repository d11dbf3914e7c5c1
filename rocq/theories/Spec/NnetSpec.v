(** Networks as the converter writes them (tool/convert_am.py:272-285): layers
    that work on single rows, and splices followed by the narrowing that removes
    the rows at the edges. *)
From Coq Require Import ZArith List.
From Verif.Base Require Import Prelude.
From Verif.Model Require Import Nnet.
Import ListNotations.
Open Scope Z_scope.

Inductive block (F : Type) : Type :=
| Single (l : layer F)
| Context (indices : list Z).
Arguments Single {F}. Arguments Context {F}.

(** How far [indices] reach to the left and to the right. *)
Definition reach_left (indices : list Z) : Z := fold_right Z.max 0 (map Z.opp indices).
Definition reach_right (indices : list Z) : Z := fold_right Z.max 0 indices.

Definition block_layers {F} (b : block F) : list (layer F) :=
  match b with
  | Single l => [l]
  | Context idx => [Splice idx; Narrow (reach_left idx) (reach_right idx)]
  end.

Definition well_formed {F} (b : block F) : Prop :=
  match b with
  | Single (Splice _) | Single (Narrow _ _) => False
  | Single _ => True
  | Context idx => idx <> []
  end.

Definition block_left {F} (b : block F) : nat :=
  match b with Single _ => 0%nat | Context idx => Z.to_nat (reach_left idx) end.
Definition block_right {F} (b : block F) : nat :=
  match b with Single _ => 0%nat | Context idx => Z.to_nat (reach_right idx) end.

(** The contexts of a network are the sums over its blocks. *)
Definition left_context {F} (bs : list (block F)) : nat := list_sum (map block_left bs).
Definition right_context {F} (bs : list (block F)) : nat := list_sum (map block_right bs).

(** [z] arises from [x] by the steps of [ls], one after the other. *)
Fixpoint in_order {L M} (step : L -> M -> res M) (ls : list L) (x z : M) : Prop :=
  match ls with
  | [] => z = x
  | l :: ls => exists y, step l x = Ok y /\ in_order step ls y z
  end.
