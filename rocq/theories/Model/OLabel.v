(** Model of the output-label nodes of the decoder (class [Decoder::OLabel]),
    the only class kept in a [GCPool]. *)
From Coq Require Import ZArith List Bool.
From Verif.Base Require Import Prelude ZMap.
From Verif.Spec Require Import GCSpec.
From Verif.Model Require Import Pool.
Import ListNotations.
Open Scope Z_scope.

(** src/decoder.h:266-269, the members [olabel_] and [nexts_] ([previous_] is
    the [n_prev] of the node). *)
Record olabel : Type := mk_olabel {
  o_label : Z;
  o_nexts : zmap Z
}.

Notation onode := (node olabel).

(** src/decoder.cc:30-42, [OLabel::OnCollect]. [nexts_] is cleared first, so a
    node that is its own previous loses nothing more by the erase. *)
Definition on_collect (h : zmap onode) (a : Z) : res (zmap onode) :=
  n <- deref h a ;;
  let cleared := mk_node (n_state n) (n_prev n) (mk_olabel (o_label (n_data n)) zempty) in
  let h := zset h a cleared in
  h <- match n_prev n with
       | None => Ok h
       | Some b =>
           m <- deref h b ;;
           if is_freed (n_state m) then Ok h
           else
             let d := mk_olabel (o_label (n_data m))
                                (zdel (o_nexts (n_data m)) (o_label (n_data n))) in
             Ok (zset h b (mk_node (n_state m) (n_prev m) d))
       end ;;
  Ok (zset h a (mk_node (n_state n) None (mk_olabel (-1) zempty))).

(** src/decoder.cc:151-163, the part of [InsertTok] that finds or makes the
    node for a non-zero output label. *)
Definition child (B : Z) (g : gcpool olabel) (prev : option Z) (l : Z)
  : res (gcpool olabel * Z) :=
  found <- match prev with
           | None => Ok None
           | Some p => n <- deref (g_heap g) p ;; Ok (zget (o_nexts (n_data n)) l)
           end ;;
  match found with
  | Some a => Ok (g, a)
  | None =>
      '(g, a) <- galloc B g prev (mk_olabel l zempty) ;;
      match prev with
      | None => Ok (g, a)
      | Some p =>
          n <- deref (g_heap g) p ;;
          let d := mk_olabel (o_label (n_data n)) (zset (o_nexts (n_data n)) l a) in
          Ok (mk_gcpool (g_pool g)
                        (zset (g_heap g) p (mk_node (n_state n) (n_prev n) d)), a)
      end
  end.

(** src/decoder.cc, [BestPath]: following [previous()] from a node; the labels
    passed, first the node's own. [fuel] bounds the number of steps. *)
Fixpoint chain (fuel : nat) (h : zmap onode) (a : option Z) : res (list Z) :=
  match a with
  | None => Ok []
  | Some a =>
      match fuel with
      | O => Fault Fuel
      | S fuel =>
          n <- deref h a ;;
          r <- chain fuel h (n_prev n) ;;
          Ok (o_label (n_data n) :: r)
      end
  end.

(** [GC] of the pool of output labels. *)
Definition ogc (B : Z) (g : gcpool olabel) (roots : list Z) : res (gcpool olabel) :=
  gc B on_collect g roots.

(** All ways of using the store of output labels: [past] is what happened
    (newest first), every call uses usable nodes, and every collection
    satisfies [P]. *)
Inductive usage (B : Z) (P : list gevent -> list Z -> Prop)
  : gcpool olabel -> list gevent -> Prop :=
| usage_init : usage B P ginit []
| usage_child : forall g past prev l g' a,
    usage B P g past -> valid_child past prev ->
    child B g prev l = Ok (g', a) -> usage B P g' (EChild prev l a :: past)
| usage_collect : forall g past roots g',
    usage B P g past -> valid_roots past roots -> P past roots ->
    ogc B g roots = Ok g' -> usage B P g' (ECollect roots :: past).
