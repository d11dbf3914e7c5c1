(** Specification of a key/value table by its history of calls.
    Independent of any representation. *)
From Coq Require Import List Bool Arith.
Import ListNotations.

Section MapSpec.
  Variables K V : Type.
  Variable keq : K -> K -> bool.

  (** A call on the table. *)
  Inductive op : Type :=
  | OInsert (k : K) (v : V)
  | OFind (k : K) (dflt : V)
  | OClear.

  (** The value stored under [k] after the calls [past] (newest first): the
      one of the latest insertion of [k] since the latest clear. *)
  Fixpoint value_of (past : list op) (k : K) : option V :=
    match past with
    | [] => None
    | OInsert k' v :: r => if keq k' k then Some v else value_of r k
    | OFind _ _ :: r => value_of r k
    | OClear :: _ => None
    end.

  (** Number of distinct keys stored after the calls [past]. *)
  Fixpoint entries (past : list op) : nat :=
    match past with
    | [] => 0
    | OInsert k _ :: r =>
        match value_of r k with Some _ => entries r | None => S (entries r) end
    | OFind _ _ :: r => entries r
    | OClear :: _ => 0
    end.

  (** The answers the finds of the history [h] (in call order) must give when
      it is run after [past] (newest first). *)
  Fixpoint answers (past : list op) (h : list op) : list V :=
    match h with
    | [] => []
    | OFind k d :: t =>
        (match value_of past k with Some v => v | None => d end)
          :: answers (OFind k d :: past) t
    | o :: t => answers (o :: past) t
    end.
End MapSpec.

Arguments OInsert {K V} k v.
Arguments OFind {K V} k dflt.
Arguments OClear {K V}.
Arguments value_of {K V} keq past k.
Arguments entries {K V} keq past.
Arguments answers {K V} keq past h.

(** [each P past h]: every call of the history [h], run after [past], is made
    in a situation where [P] holds. *)
Fixpoint each {K V} (P : list (op K V) -> op K V -> Prop)
         (past h : list (op K V)) : Prop :=
  match h with
  | [] => True
  | o :: r => P past o /\ each P (o :: past) r
  end.
