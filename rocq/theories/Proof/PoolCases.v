(** Concrete runs of the pool and of garbage collection. *)
From Coq Require Import ZArith List Bool Lia.
From Verif.Base Require Import Prelude ZMap.
From Verif.Spec Require Import PoolSpec GCSpec.
From Verif.Model Require Import Pool OLabel.
Import ListNotations.
Open Scope Z_scope.

Lemma pool_case :
  exists p past, prun 2 pool_init [] [PAlloc; PAlloc; PAlloc; PDealloc 1; PAlloc; PClear; PAlloc]
                 = Ok (p, past) /\ legal past /\
                 past = [EAlloc 0; EClear [0; 1; 2]; EAlloc 1; EDealloc 1; EAlloc 2; EAlloc 1; EAlloc 0].
Proof. do 2 eexists. split; [vm_compute; reflexivity|]. split; [cbn; tauto|reflexivity]. Qed.

Lemma pool_clear_case :
  exists p past d earlier,
    prun 2 pool_init [] [PAlloc; PAlloc; PAlloc; PDealloc 1; PClear] = Ok (p, past) /\
    legal past /\ past = [] ++ EClear d :: earlier /\
    blocks_for 2 (peak_recent earlier) = blocks_for 2 (peak earlier) /\ d = [0; 2].
Proof.
  do 4 eexists. split; [vm_compute; reflexivity|]. split; [cbn; tauto|].
  split; [reflexivity|]. split; reflexivity.
Qed.

Lemma valid_from : forall past p, (exists q l, usable past p q l) -> valid_child past (Some p).
Proof. auto. Qed.

Tactic Notation "child_by" tactic(t1) "and" tactic(t2) :=
  eapply usage_child; [solve [t1]|solve [t2]|vm_compute; reflexivity].
Tactic Notation "collect_by" tactic(t1) "and" tactic(t2) "and" tactic(t3) :=
  eapply usage_collect; [solve [t1]|solve [t2]|solve [t3]|vm_compute; reflexivity].

Lemma gc_unsafe :
  exists g past a prev l,
    usage 4096 (fun _ _ => True) g past /\ usable past a prev l /\ In a (p_free (g_pool g)).
Proof.
  eexists _, [ECollect [1]; ECollect [1]; EChild (Some 0) 6 1; EChild None 5 0], 0, None, 5.
  assert (U1 : usable [EChild (Some 0) 6 1; EChild None 5 0] 1 (Some 0) 6) by (cbn; auto).
  assert (U0 : usable [EChild (Some 0) 6 1; EChild None 5 0] 0 None 5) by (cbn; auto).
  assert (R1 : reachable [EChild (Some 0) 6 1; EChild None 5 0] [1] 1) by (apply reach_root; left; auto).
  assert (R0 : reachable [EChild (Some 0) 6 1; EChild None 5 0] [1] 0) by (eapply reach_step; [exact R1|eauto]).
  assert (U1' : usable [ECollect [1]; EChild (Some 0) 6 1; EChild None 5 0] 1 (Some 0) 6) by (split; auto).
  assert (R1' : reachable [ECollect [1]; EChild (Some 0) 6 1; EChild None 5 0] [1] 1)
    by (apply reach_root; left; auto).
  split; [|split].
  - collect_by (collect_by (child_by (child_by (apply usage_init) and (exact I)) and (cbn; eauto))
      and (intros a [<-|[]]; eauto) and (exact I))
      and (intros a [<-|[]]; eauto) and (exact I).
  - split; [split; auto|]. eapply reach_step; [exact R1'|eauto].
  - left. reflexivity.
Qed.

Lemma gc_leak :
  exists g past g' a,
    usage 4096 safe_roots g past /\ safe_roots past [] /\ ogc 4096 g [] = Ok g' /\
    0 <= a < slots_used past /\ ~ reachable past [] a /\ ~ In a (p_free (g_pool g')).
Proof.
  eexists _, [EChild None 5 0], _, 0. split; [child_by (apply usage_init) and (exact I)|].
  split; [intros (_ & [] & _)|]. split; [vm_compute; reflexivity|]. split; [cbn; lia|].
  split; [|intros []]. intros H. 
  assert (G : forall x, ~ reachable [EChild None 5 0] [] x); [|apply (G 0 H)].
  intros x Hx. induction Hx; auto.
Qed.

Lemma gc_free_case :
  exists g g', usage 4096 safe_roots g [EChild None 7 2; EChild (Some 0) 6 1; EChild None 5 0] /\
    ogc 4096 g [0] = Ok g' /\ p_free (g_pool g') = [1].
Proof.
  do 2 eexists. split; [|split].
  - child_by (child_by (child_by (apply usage_init) and (exact I)) and (cbn; eauto)) and (exact I).
  - vm_compute; reflexivity.
  - reflexivity.
Qed.

Lemma gc_case :
  exists g, usage 4096 safe_roots g
    [ECollect [1]; EChild (Some 1) 9 3; ECollect [1]; EChild (Some 0) 8 2; EChild (Some 0) 6 1; EChild None 5 0] /\
  usable [ECollect [1]; EChild (Some 1) 9 3; ECollect [1]; EChild (Some 0) 8 2; EChild (Some 0) 6 1; EChild None 5 0]
    0 None 5 /\
  In 2 (p_free (g_pool g)).
Proof.
  set (p3 := [EChild (Some 0) 8 2; EChild (Some 0) 6 1; EChild None 5 0]).
  assert (U1 : usable p3 1 (Some 0) 6) by (cbn; auto).
  assert (U0 : usable p3 0 None 5) by (cbn; auto).
  assert (R1 : reachable p3 [1] 1) by (apply reach_root; left; auto).
  assert (R0 : reachable p3 [1] 0) by (eapply reach_step; [exact R1|eauto]).
  set (p5 := EChild (Some 1) 9 3 :: ECollect [1] :: p3).
  assert (U1' : usable p5 1 (Some 0) 6) by (split; auto).
  assert (U0' : usable p5 0 None 5) by (split; auto).
  assert (R1' : reachable p5 [1] 1) by (apply reach_root; left; auto).
  assert (N3 : ~ reachable p5 [1] 3).
  { intros H. assert (G : forall x, reachable p5 [1] x -> x = 1 \/ x = 0).
    { intros x Hx. induction Hx as [x Hx|x y Hx IH (k & Hu)].
      - destruct Hx as [<-|[]]; auto.
      - destruct IH as [->| ->].
        + destruct Hu as [Hu _]. cbn in Hu. destruct Hu as [Hu _]. injection Hu as ->. auto.
        + destruct Hu as [Hu _]. cbn in Hu. destruct Hu as [Hu _]. discriminate. }
    destruct (G 3 H); lia. }
  eexists. split; [|split].
  - collect_by (child_by (collect_by (child_by (child_by (child_by (apply usage_init)
      and (exact I)) and (cbn; eauto)) and (cbn; eauto))
      and (intros a [<-|[]]; fold p3; eauto) and (intros (_ & [] & _)))
      and (exists (Some 0), 6; split; auto))
      and (intros a [<-|[]]; fold p3; fold p5; eauto)
      and (fold p3; fold p5; intros (H & _); apply N3; exact H).
  - fold p3. fold p5. split; auto. eapply reach_step; [exact R1'|eauto].
  - cbn. auto.
Qed.
