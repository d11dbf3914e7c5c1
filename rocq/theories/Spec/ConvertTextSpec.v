(** The tables of a transducer as lines of text. *)
From Coq Require Import ZArith String List.
From Verif.Base Require Import Prelude.
From Verif.Model Require Import Fst Stt.
From Verif.Spec Require Import TextSpec.
Import ListNotations.
Open Scope Z_scope.

(** One line per element, which may depend on its position. *)
Inductive numbered {A} (line : Z -> A -> bytes -> Prop) : Z -> list A -> list bytes -> Prop :=
| numbered_nil : forall i, numbered line i [] []
| numbered_cons : forall i x l s ls, line i x s -> numbered line (i + 1) l ls -> numbered line i (x :: l) (s :: ls).

Definition entry {A} (shown : A -> bytes -> Prop) (i : Z) (x : A) (s : bytes) : Prop :=
  exists p v, decimal i p /\ shown x v /\ s = p ++ lit " -> " ++ v.

Definition arc_entry {W} (shown : W -> bytes -> Prop) (i : Z) (a : arc W) (s : bytes) : Prop :=
  exists p n x y w, decimal i p /\ decimal (next_state a) n /\ decimal (input_label a) x /\
    decimal (output_label a) y /\ shown (weight a) w /\
    s = p ++ lit " -> next_state(" ++ n ++ lit "), input_label(" ++ x ++ lit "), output_label(" ++ y ++
        lit "), weight(" ++ w ++ lit ")".

(** The tables [g], where [shown] says how weights look. *)
Definition tables_text {W} (shown : W -> bytes -> Prop) (g : fst W) (lines : list bytes) : Prop :=
  exists n a s finals idx arcs,
    decimal (Z.of_nat (length (final_ g))) n /\ decimal (Z.of_nat (length (arcs_ g))) a /\ decimal (start_state g) s /\
    numbered (entry shown) 0 (final_ g) finals /\ numbered (entry decimal) 0 (state_idx g) idx /\
    numbered (arc_entry shown) 0 (arcs_ g) arcs /\
    lines = [lit "state_number = " ++ n; lit "arc_number = " ++ a; lit "start_state = " ++ s;
             lit "============ final ============="] ++ finals ++
            [lit "============ state_arcidx ============="] ++ idx ++
            [lit "============ arcs ============="] ++ arcs.
