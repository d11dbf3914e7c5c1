(** Context windows of a sequence of frames. *)
From Coq Require Import ZArith List.
From Verif.Base Require Import Prelude.
From Verif.Spec Require Import AudioSpec.
Import ListNotations.
Open Scope Z_scope.

(** All rows have [c] elements. *)
Definition uniform {F} (c : Z) (x : list (list F)) : Prop := Forall (fun r => lenZ r = c) x.

(** The frames with the first one repeated [L] times in front and the last one
    [R] times behind. *)
Definition padded {A} (L R : nat) (frames : list A) : list A :=
  match frames with
  | [] => []
  | f :: _ => repeat f L ++ frames ++ repeat (last frames f) R
  end.

(** Each output row of [net] is determined by [L + R + 1] consecutive input rows
    and is what [net] gives for these rows alone. *)
Definition local {F} (net : list (list F) -> res (list (list F))) (L R : nat) (d : Z) : Prop :=
  forall x y, uniform d x -> (L + R < length x)%nat ->
    (net x = Ok y <-> Forall2 (fun w r => net w = Ok [r]) (windows (S (L + R)) 1 x) y).

(** [row] is [r] with [p] subtracted elementwise; [neg_add x y] is x + (-1) y. *)
Definition subtracted {F} (neg_add : F -> F -> F) (r p row : list F) : Prop :=
  length row = length r /\
  forall i d, (i < length r)%nat -> nth i row d = neg_add (nth i r d) (nth i p d).
