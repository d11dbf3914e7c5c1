(** Specification of an object pool by the events its user sees. *)
From Coq Require Import ZArith List Bool.
Import ListNotations.
Open Scope Z_scope.

(** What a user of the pool observes. Slots are numbers. *)
Inductive event : Type :=
| EAlloc (a : Z)              (* Alloc returned slot [a] *)
| EDealloc (a : Z)            (* the user deallocated slot [a] *)
| EClear (destroyed : list Z) (* Clear ran the destructors of these slots *).

(** The slots that hold an object after the events [past] (newest first). *)
Fixpoint live (past : list event) : list Z :=
  match past with
  | [] => []
  | EAlloc a :: r => a :: live r
  | EDealloc a :: r => remove Z.eq_dec a (live r)
  | EClear _ :: _ => []
  end.

(** The user only deallocates what is live. *)
Fixpoint legal (past : list event) : Prop :=
  match past with
  | [] => True
  | EDealloc a :: r => In a (live r) /\ legal r
  | _ :: r => legal r
  end.

(** Largest number of live objects since the last Clear, and ever. *)
Fixpoint peak_recent (past : list event) : nat :=
  match past with
  | [] => 0
  | EClear _ :: _ => 0
  | (EAlloc _ | EDealloc _) as e :: r => Nat.max (length (live (e :: r))) (peak_recent r)
  end.

Fixpoint peak (past : list event) : nat :=
  match past with
  | [] => 0
  | e :: r => Nat.max (length (live (e :: r))) (peak r)
  end.

(** Blocks of [B] slots needed for [n] objects; there is always one. *)
Definition blocks_for (B : Z) (n : nat) : Z := Z.max 1 ((Z.of_nat n + B - 1) / B).
