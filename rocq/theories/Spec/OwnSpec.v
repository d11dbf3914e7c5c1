(** Vectors as values: lists that no two variables share. *)
From Coq Require Import ZArith List.
From Verif.Base Require Import Prelude.
From Verif.Model Require Import Own.
Import ListNotations.
Open Scope Z_scope.

Section Spec.
Context {F : Type}.
Variable zero : F.

(** The contents of the variables; [None] for those that are no more. *)
Definition contents : Type := list (option (list F)).
Definition holds (w : contents) (i : nat) (l : list F) : Prop := nth_error w i = Some (Some l).

(** What a vector contains after its size was changed. Undefined contents can be
    anything, unless the size stays the same. *)
Definition resized (t : resize_kind) (old : list F) (dim : Z) (new : list F) : Prop :=
  lenZ new = dim /\
  match t with
  | SetZero => new = repeat zero (Z.to_nat dim)
  | Undefined => lenZ old = dim -> new = old
  | CopyData => forall k, 0 <= k < dim -> nth (Z.to_nat k) new zero = nth (Z.to_nat k) old zero
  end.

(** The calls a program may make: variables that exist, dimensions that are not
    negative and make less than 2 GB, places inside, copies of the same size. *)
Definition permitted (width : Z) (w : contents) (c : call F) : Prop :=
  match c with
  | New => True
  | NewSized dim _ => 0 <= dim /\ dim * width <= int_max
  | NewMoved i => exists l, holds w i l
  | Assign i j | Swap i j => (exists l, holds w i l) /\ exists l, holds w j l
  | Resize i dim _ => (exists l, holds w i l) /\ 0 <= dim /\ dim * width <= int_max
  | Get i k | Set_ i k _ => exists l, holds w i l /\ 0 <= k < lenZ l
  | Zero i | Delete i => exists l, holds w i l
  | Copy i j => exists l l', holds w i l /\ holds w j l' /\ lenZ l = lenZ l'
  end.

(** What the call does. Without memory, a vector that was to be resized is empty,
    unless its contents were to be kept. *)
Definition does (w : contents) (c : call F) (a : answer F) (w' : contents) : Prop :=
  match c with
  | New => a = Done /\ w' = w ++ [Some []]
  | NewSized dim t =>
      (a = Done /\ exists l, resized t [] dim l /\ w' = w ++ [Some l]) \/ (a = NoMemory /\ w' = w ++ [None])
  | NewMoved i => a = Done /\ exists l, holds w i l /\ w' = upd w i (Some []) ++ [Some l]
  | Assign i j => a = Done /\ exists l, holds w j l /\ w' = upd (upd w i (Some l)) j (Some [])
  | Swap i j => a = Done /\ exists l l', holds w i l /\ holds w j l' /\ w' = upd (upd w i (Some l')) j (Some l)
  | Resize i dim t => exists l, holds w i l /\
      ((a = Done /\ exists l', resized t l dim l' /\ w' = upd w i (Some l')) \/
       (a = NoMemory /\ w' = match t with CopyData => w | _ => upd w i (Some []) end))
  | Get i k => w' = w /\ exists l x, holds w i l /\ nth_error l (Z.to_nat k) = Some x /\ a = Value x
  | Set_ i k x => a = Done /\ exists l, holds w i l /\ w' = upd w i (Some (upd l (Z.to_nat k) x))
  | Zero i => a = Done /\ exists l, holds w i l /\ w' = upd w i (Some (repeat zero (length l)))
  | Copy i j => a = Done /\ exists l, holds w j l /\ w' = upd w i (Some l)
  | Delete i => a = Done /\ w' = upd w i None
  end.

(** A history of permitted calls, the contents at its end, and how often
    something was assigned to a vector that had elements. *)
Fixpoint history (width : Z) (w : contents) (cs : list (call F)) (r : list (answer F)) (w' : contents) (n : nat) : Prop :=
  match cs, r with
  | [], [] => w' = w /\ n = 0%nat
  | c :: cs, a :: r => permitted width w c /\ exists w1 n1, does w c a w1 /\ history width w1 cs r w' n1 /\
      match c with
      | Assign i _ => (holds w i [] /\ n = n1) \/ (exists x l, holds w i (x :: l)) /\ n = S n1
      | _ => n = n1
      end
  | _, _ => False
  end.

(** The number of variables that have elements, and of blocks in use. *)
Definition full (w : contents) : nat :=
  length (filter (fun o => match o with Some (_ :: _) => true | _ => false end) w).
Definition in_use (h : heap F) : nat :=
  length (filter (fun o => match o with Some _ => true | None => false end) h).
End Spec.
