(** Object pool and garbage collection: C04 - C07. *)
From Coq Require Import ZArith List Bool Permutation Lia.
From Verif.Base Require Import Prelude ZMap.
From Verif.Spec Require Import PoolSpec GCSpec.
From Verif.Model Require Import Pool OLabel.
From Verif.Proof Require Pool OLabel PoolCases.
Import ListNotations.
Open Scope Z_scope.

(** C04. No history of Alloc, Dealloc and Clear calls faults; if the user only
    deallocates live slots, Alloc never returns a live slot, and the reported
    numbers of allocated and free nodes are right. *)
Theorem pool_slots_distinct : forall B h, 0 < B ->
  exists p past, prun B pool_init [] h = Ok (p, past) /\
    (legal past ->
     (forall later a earlier, past = later ++ EAlloc a :: earlier -> ~ In a (live earlier)) /\
     allocated_nodes B p = Z.of_nat (length (live past)) /\
     allocated_nodes B p + free_nodes B p = p_blocks p * B).
Proof. intros B h HB. exact (Proof.Pool.pool_history B HB h). Qed.
Print Assumptions pool_slots_distinct.

Example pool_slots_distinct_case :
  exists p past, prun 2 pool_init [] [PAlloc; PAlloc; PAlloc; PDealloc 1; PAlloc; PClear; PAlloc]
                 = Ok (p, past) /\ legal past /\
                 past = [EAlloc 0; EClear [0; 1; 2]; EAlloc 1; EDealloc 1; EAlloc 2; EAlloc 1; EAlloc 0].
Proof. exact Proof.PoolCases.pool_case. Qed.

(** C05, the part that holds: a Clear runs the destructor of every live object
    once; it touches nothing else when it is the first Clear or when the blocks
    needed since the last Clear are as many as were ever needed. *)
Theorem pool_clear_destroys_partial : forall B h p past later d earlier, 0 < B ->
  prun B pool_init [] h = Ok (p, past) -> legal past ->
  past = later ++ EClear d :: earlier ->
  NoDup d /\ incl (live earlier) d /\
  ((forall d', ~ In (EClear d') earlier) \/
   blocks_for B (peak_recent earlier) = blocks_for B (peak earlier) ->
   Permutation d (live earlier)).
Proof.
  intros B h p past later d earlier HB.
  exact (Proof.Pool.pool_clear_history B HB h p past later d earlier).
Qed.
Print Assumptions pool_clear_destroys_partial.

Example pool_clear_destroys_case :
  exists p past d earlier,
    prun 2 pool_init [] [PAlloc; PAlloc; PAlloc; PDealloc 1; PClear] = Ok (p, past) /\
    legal past /\ past = [] ++ EClear d :: earlier /\
    blocks_for 2 (peak_recent earlier) = blocks_for 2 (peak earlier) /\ d = [0; 2].
Proof. exact Proof.PoolCases.pool_clear_case. Qed.

(** C05 is false in general: after more objects than one block holds, a second
    Clear destroys the whole first block although nothing is live. *)
Theorem pool_clear_destroys_refuted : forall B n, 0 < B -> B < Z.of_nat n ->
  exists p d d' past,
    prun B pool_init [] (repeat PAlloc n ++ [PClear; PClear])
      = Ok (p, EClear d' :: EClear d :: past) /\
    legal (EClear d' :: EClear d :: past) /\
    live (EClear d :: past) = [] /\ incl (seqZ 0 (Z.to_nat B)) d' /\ d' <> [].
Proof. exact Proof.Pool.pool_double_destroy. Qed.
Print Assumptions pool_clear_destroys_refuted.

(** C06, the part that holds: as long as every collection is safe (see
    [safe_roots]), every node the user may use is still allocated and has its
    predecessor and label; asking for a node never gives one that is in use
    with other content; and no call faults. *)
Theorem gc_keeps_reachable_partial : forall B g past, 0 < B ->
  usage B safe_roots g past ->
  (forall a prev l, usable past a prev l ->
     ~ In a (p_free (g_pool g)) /\
     exists n, zget (g_heap g) a = Some n /\ n_prev n = prev /\ o_label (n_data n) = l) /\
  (forall prev l, valid_child past prev ->
     exists g' a, child B g prev l = Ok (g', a) /\
       forall q k, usable past a q k -> q = prev /\ k = l) /\
  (forall roots, valid_roots past roots -> safe_roots past roots ->
     exists g', ogc B g roots = Ok g').
Proof. intros B g past HB. exact (Proof.OLabel.store_keeps B HB g past). Qed.
Print Assumptions gc_keeps_reachable_partial.

(** A collection is safe if it is the first one or if a new slot has been
    taken into use since the last one. *)
Theorem gc_safe_after_growth_partial : forall B P g past recent g' roots,
  usage B P g past -> (forall r, ~ In (ECollect r) recent) ->
  usage B P g' (recent ++ past) ->
  past = [] \/ slots_used past < slots_used (recent ++ past) ->
  safe_roots (recent ++ past) roots.
Proof. exact Proof.OLabel.growth_is_safe. Qed.
Print Assumptions gc_safe_after_growth_partial.

(** Two nodes [0 <- 1] and a third, unreachable one; collected twice. *)
Example gc_keeps_reachable_case :
  exists g, usage 4096 safe_roots g
    [ECollect [1]; EChild (Some 1) 9 3; ECollect [1]; EChild (Some 0) 8 2; EChild (Some 0) 6 1; EChild None 5 0] /\
  usable [ECollect [1]; EChild (Some 1) 9 3; ECollect [1]; EChild (Some 0) 8 2; EChild (Some 0) 6 1; EChild None 5 0]
    0 None 5 /\
  In 2 (p_free (g_pool g)).
Proof. exact Proof.PoolCases.gc_case. Qed.

(** C06 is false in general: two collections with the same root free the
    root's predecessor. *)
Theorem gc_keeps_reachable_refuted :
  exists g past a prev l,
    usage 4096 (fun _ _ => True) g past /\ usable past a prev l /\ In a (p_free (g_pool g)).
Proof. exact Proof.PoolCases.gc_unsafe. Qed.
Print Assumptions gc_keeps_reachable_refuted.

(** C07, the part that holds: a safe collection returns every unreachable node
    except the one in the highest slot, no reachable one, and returned slots
    are used again first. *)
Theorem gc_frees_unreachable_partial : forall B g past roots g', 0 < B ->
  usage B safe_roots g past -> valid_roots past roots -> safe_roots past roots ->
  ogc B g roots = Ok g' ->
  (forall a, 0 <= a < slots_used past - 1 -> ~ reachable past roots a -> In a (p_free (g_pool g'))) /\
  (forall a, reachable past roots a -> ~ In a (p_free (g_pool g'))) /\
  (p_free (g_pool g') <> [] -> forall l, exists g'' a,
     child B g' None l = Ok (g'', a) /\ In a (p_free (g_pool g'))).
Proof. intros B g past roots g' HB. exact (Proof.OLabel.store_frees B HB g past roots g'). Qed.
Print Assumptions gc_frees_unreachable_partial.

Example gc_frees_unreachable_case :
  exists g g', usage 4096 safe_roots g [EChild None 7 2; EChild (Some 0) 6 1; EChild None 5 0] /\
    ogc 4096 g [0] = Ok g' /\ p_free (g_pool g') = [1].
Proof. exact Proof.PoolCases.gc_free_case. Qed.

(** C07 is false in general: the highest slot is never collected. *)
Theorem gc_frees_unreachable_refuted :
  exists g past g' a,
    usage 4096 safe_roots g past /\ safe_roots past [] /\ ogc 4096 g [] = Ok g' /\
    0 <= a < slots_used past /\ ~ reachable past [] a /\ ~ In a (p_free (g_pool g')).
Proof. exact Proof.PoolCases.gc_leak. Qed.
Print Assumptions gc_frees_unreachable_refuted.
