(** Model of src/pool.h. *)
From Coq Require Import ZArith List Bool Lia.
From Verif.Base Require Import Prelude ZMap.
From Verif.Spec Require Import PoolSpec.
Import ListNotations.
Open Scope Z_scope.

Section Pool.
  Variable B : Z.   (* the template parameter BLOCK_SIZE *)

  (** src/pool.h:111-115, the members. A pointer to position [pos] of block
      [b] is the number [b * B + pos]; [p_blocks] is [blocks_.size()];
      [p_free] has the back of the vector at the head of the list. The [int]
      counters are unbounded: they count objects in memory. *)
  Record pool : Type := mk_pool {
    p_blocks : Z;
    p_free : list Z;
    p_block : Z;
    p_pos : Z
  }.

  (** src/pool.h:19-22, the constructor. *)
  Definition pool_init : pool := mk_pool 1 [] 0 0.

  (** src/pool.h:34-57, [Alloc]: the slot the new object is built in. *)
  Definition alloc (p : pool) : res (pool * Z) :=
    match p_free p with
    | [] =>
        _ <- check (p_pos p <=? B) Assert ;;
        let p' :=
          if p_pos p =? B then
            mk_pool (if p_block p =? p_blocks p - 1 then p_blocks p + 1 else p_blocks p)
                    [] (p_block p + 1) 0
          else p in
        _ <- check (p_block p' <? p_blocks p') Undef ;;
        Ok (mk_pool (p_blocks p') [] (p_block p') (p_pos p' + 1),
            p_block p' * B + p_pos p')
    | a :: r => Ok (mk_pool (p_blocks p) r (p_block p) (p_pos p), a)
    end.

  (** src/pool.h:60-65, [Dealloc]. *)
  Definition dealloc (p : pool) (a : Z) : pool :=
    mk_pool (p_blocks p) (a :: p_free p) (p_block p) (p_pos p).

  (** src/pool.h:72-96: the slots whose destructor [Clear] runs, in order, for
      a type [T] that is not trivially destructible. *)
  Definition clear_destroys (p : pool) : list Z :=
    let full := flat_map (fun b => map (fun i => b * B + i) (seqZ 0 (Z.to_nat B)))
                         (seqZ 0 (Z.to_nat (p_blocks p - 1))) in
    let last := map (fun i => (p_blocks p - 1) * B + i) (seqZ 0 (Z.to_nat (p_pos p))) in
    filter (fun a => negb (existsb (Z.eqb a) (p_free p))) (full ++ last).

  (** src/pool.h:68-99, [Clear]. *)
  Definition pool_clear (p : pool) : pool * list Z :=
    (mk_pool (p_blocks p) [] 0 0, clear_destroys p).

  (** src/pool.h:102-109. *)
  Definition free_nodes (p : pool) : Z :=
    Z.of_nat (length (p_free p)) + (p_blocks p - p_block p) * B - p_pos p.
  Definition allocated_nodes (p : pool) : Z :=
    p_block p * B + p_pos p - Z.of_nat (length (p_free p)).

  (** A user's calls and what they observe (newest first). The destructor of
      the pool (src/pool.h:24-31) is a last [Clear]. *)
  Inductive pcall : Type :=
  | PAlloc
  | PDealloc (a : Z)
  | PClear.

  Fixpoint prun (p : pool) (past : list event) (h : list pcall)
    : res (pool * list event) :=
    match h with
    | [] => Ok (p, past)
    | PAlloc :: r => '(p, a) <- alloc p ;; prun p (EAlloc a :: past) r
    | PDealloc a :: r => prun (dealloc p a) (EDealloc a :: past) r
    | PClear :: r => let '(p, d) := pool_clear p in prun p (EClear d :: past) r
    end.
End Pool.

(** src/pool.h:120-125, the states of a [Collectable]. *)
Inductive nstate : Type := Marked | Unmarked | Freed | Using.

Definition is_marked (s : nstate) : bool := match s with Marked => true | _ => false end.
Definition is_freed (s : nstate) : bool := match s with Freed => true | _ => false end.

Section GC.
  Variable B : Z.
  Variable D : Type.          (* what an object holds besides [previous] and its state *)

  (** An object of a class derived from [Collectable] (src/pool.h:118-153) with
      its [previous()] pointer. *)
  Record node : Type := mk_node {
    n_state : nstate;
    n_prev : option Z;
    n_data : D
  }.

  (** src/pool.h:162-253, [GCPool]: the pool and the memory of its slots. The
      memory of a slot keeps its content after the destructor has run: the
      code reads [is_freed()] of destroyed objects (lines 191, 222); this is
      taken as a read of the bytes left behind. *)
  Record gcpool : Type := mk_gcpool {
    g_pool : pool;
    g_heap : zmap node
  }.

  Definition ginit : gcpool := mk_gcpool pool_init zempty.

  (** src/pool.h:166-171, [Alloc]: constructed, then [Use()]. *)
  Definition galloc (g : gcpool) (prev : option Z) (d : D) : res (gcpool * Z) :=
    '(p, a) <- alloc B (g_pool g) ;;
    Ok (mk_gcpool p (zset (g_heap g) a (mk_node Using prev d)), a).

  (** Dereferencing a pointer into the pool. *)
  Definition deref (h : zmap node) (a : Z) : res node :=
    match zget h a with Some n => Ok n | None => Fault Undef end.

  Definition set_state (s : nstate) (n : node) : node := mk_node s (n_prev n) (n_data n).

  (** src/pool.h:173-176, [Dealloc]. *)
  Definition gdealloc (g : gcpool) (a : Z) : res gcpool :=
    n <- deref (g_heap g) a ;;
    Ok (mk_gcpool (dealloc (g_pool g) a) (zset (g_heap g) a (set_state Freed n))).

  (** src/pool.h:185-189, 217-221: the slots both loops of [GC] visit. *)
  Definition gc_slots (p : pool) : list Z :=
    flat_map (fun b =>
                let max_pos := if b =? p_block p then p_pos p - 1 else B in
                map (fun i => b * B + i) (seqZ 0 (Z.to_nat max_pos)))
             (seqZ 0 (Z.to_nat (p_block p + 1))).

  (** src/pool.h:190-193. *)
  Fixpoint unmark_all (slots : list Z) (h : zmap node) : res (zmap node) :=
    match slots with
    | [] => Ok h
    | a :: r =>
        n <- deref h a ;;
        if is_freed (n_state n) then unmark_all r h
        else unmark_all r (zset h a (set_state Unmarked n))
    end.

  (** src/pool.h:198-213, the mark loop; the back of the vector is the head of
      the list. *)
  Fixpoint mark_all (fuel : nat) (queue : list Z) (h : zmap node) : res (zmap node) :=
    match queue with
    | [] => Ok h
    | a :: r =>
        match fuel with
        | O => Fault Fuel
        | S fuel =>
            n <- deref h a ;;
            if is_marked (n_state n) then mark_all fuel r h
            else
              _ <- check (negb (is_freed (n_state n))) Assert ;;
              let h := zset h a (set_state Marked n) in
              match n_prev n with
              | Some b => mark_all fuel (b :: r) h
              | None => mark_all fuel r h
              end
        end
    end.

  (** The virtual method [OnCollect] (src/pool.h:149, src/decoder.cc:30-42) of
      the object in a slot. *)
  Variable on_collect : zmap node -> Z -> res (zmap node).

  (** src/pool.h:216-237: the sweep loop; [acc] is [nodes_to_free], newest
      first. *)
  Fixpoint sweep (slots : list Z) (h : zmap node) (acc : list Z)
    : res (zmap node * list Z) :=
    match slots with
    | [] => Ok (h, rev acc)
    | a :: r =>
        n <- deref h a ;;
        if is_freed (n_state n) then sweep r h acc
        else if is_marked (n_state n) then sweep r h acc
        else
          h <- on_collect h a ;;
          n <- deref h a ;;
          sweep r (zset h a (set_state Freed n)) (a :: acc)
    end.

  (** src/pool.h:239-241. *)
  Fixpoint dealloc_all (g : gcpool) (l : list Z) : res gcpool :=
    match l with
    | [] => Ok g
    | a :: r => g <- gdealloc g a ;; dealloc_all g r
    end.

  (** Iterations of the mark loop: every slot is marked at most once. *)
  Definition mark_fuel (p : pool) (roots : list Z) : nat :=
    length roots + Z.to_nat (p_block p * B + p_pos p).

  (** src/pool.h:179-252, [GC]; the queue is taken from its back. *)
  Definition gc (g : gcpool) (roots : list Z) : res gcpool :=
    let slots := gc_slots (g_pool g) in
    h <- unmark_all slots (g_heap g) ;;
    h <- mark_all (mark_fuel (g_pool g) roots) (rev roots) h ;;
    '(h, to_free) <- sweep slots h [] ;;
    dealloc_all (mk_gcpool (g_pool g) h) to_free.
End GC.

Arguments mk_node {D}.
Arguments n_state {D}.
Arguments n_prev {D}.
Arguments n_data {D}.
Arguments mk_gcpool {D}.
Arguments g_pool {D}.
Arguments g_heap {D}.
Arguments ginit {D}.
Arguments galloc B {D}.
Arguments deref {D}.
Arguments set_state {D}.
Arguments gdealloc {D}.
Arguments unmark_all {D}.
Arguments mark_all {D}.
Arguments sweep {D}.
Arguments dealloc_all {D}.
Arguments gc B {D}.
