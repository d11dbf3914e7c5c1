(** Specification of a garbage-collected store of nodes with a label and a
    link to an earlier node, by the events its user sees. *)
From Coq Require Import ZArith List Bool.
Import ListNotations.
Open Scope Z_scope.

Inductive gevent : Type :=
| EChild (prev : option Z) (l : Z) (a : Z)  (* asked for the node with this
                                               predecessor and label, got [a] *)
| ECollect (roots : list Z).                (* collected with these roots *)

(** Reachable from [roots] through a link relation. *)
Inductive reach (link : Z -> Z -> Prop) (roots : list Z) : Z -> Prop :=
| reach_root : forall a, In a roots -> reach link roots a
| reach_step : forall a b, reach link roots a -> link a b -> reach link roots b.

(** After the events [past] (newest first) the user may use [a] as a node
    with this predecessor and label: they were given it and it has been
    reachable from the roots of every collection since. *)
Fixpoint usable (past : list gevent) (a : Z) (prev : option Z) (l : Z) : Prop :=
  match past with
  | [] => False
  | EChild p k b :: r => if Z.eq_dec a b then prev = p /\ l = k else usable r a prev l
  | ECollect roots :: r =>
      usable r a prev l /\
      reach (fun x y => exists k, usable r x (Some y) k) roots a
  end.

Definition reachable (past : list gevent) (roots : list Z) (a : Z) : Prop :=
  reach (fun x y => exists k, usable past x (Some y) k) roots a.

(** Every call uses usable nodes only. *)
Definition valid_child (past : list gevent) (prev : option Z) : Prop :=
  match prev with
  | None => True
  | Some p => exists q l, usable past p q l
  end.

Definition valid_roots (past : list gevent) (roots : list Z) : Prop :=
  forall a, In a roots -> exists q l, usable past a q l.

(** One more than the largest slot handed out so far. *)
Fixpoint slots_used (past : list gevent) : Z :=
  match past with
  | [] => 0
  | EChild _ _ a :: r => Z.max (a + 1) (slots_used r)
  | ECollect _ :: r => slots_used r
  end.

(** [a] was reachable from the roots of some collection. *)
Fixpoint survived (past : list gevent) (a : Z) : Prop :=
  match past with
  | [] => False
  | EChild _ _ _ :: r => survived r a
  | ECollect roots :: r => reachable r roots a \/ survived r a
  end.

(** A collection is safe unless the highest slot ever used holds a reachable
    node that has a predecessor and has survived an earlier collection. *)
Definition safe_roots (past : list gevent) (roots : list Z) : Prop :=
  let a := slots_used past - 1 in
  ~ (reachable past roots a /\ survived past a /\ exists p l, usable past a (Some p) l).
