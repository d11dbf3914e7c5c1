(** Vectors own their memory (C92). *)
From Coq Require Import ZArith List.
From Verif.Base Require Import Prelude.
From Verif.Model Require Import Own.
From Verif.Spec Require Import OwnSpec.
From Verif.Proof Require Own OwnCases.
Import ListNotations.
Open Scope Z_scope.

(** Whatever a program does, everything goes well up to the first call that is
    not permitted. The blocks in use are those of the vectors that have elements
    and those that assignments lost. *)
Theorem vectors_are_values : forall (F : Type) (zero : F) width junk room, 0 < width -> forall cs,
  exists cs1 h vs r w n,
    run zero width junk room init_state cs1 = Ok ((h, vs), r) /\ history zero width [] cs1 r w n /\
    in_use h = (full w + n)%nat /\
    (cs = cs1 \/ exists c cs2, cs = cs1 ++ c :: cs2 /\ ~ permitted width w c).
Proof. exact @Proof.Own.values. Qed.
Print Assumptions vectors_are_values.

Example vectors_case :
  let calls :=
    [NewSized 2 SetZero; Set_ 0 1 5; Resize 0 4 CopyData; New; Swap 0 1; Get 1 1; Get 1 3; NewMoved 1; Assign 0 2;
     NewSized 4 Undefined; Copy 3 0; Set_ 0 1 6; Get 3 1; Delete 3; Delete 0; Delete 1; Delete 2] in
  let answers :=
    [Done; Done; Done; Done; Done; Value 5; Value 0; Done; Done; Done; Done; Done; Value 5; Done; Done; Done; Done] in
  history 0 4 [] calls answers [None; None; None; None] 0 /\
  run 0 4 (fun _ => 7) (fun _ _ => true) init_state calls =
    Ok (([None; None; None], [None; None; None; None]), answers).
Proof. exact (conj Proof.OwnCases.calls_permitted Proof.OwnCases.calls_run). Qed.
Print Assumptions vectors_case.

(** Memory is not always given back: all vectors are gone, a block is not. *)
Theorem assigned_vectors_freed_refuted :
  let calls := [NewSized 1 SetZero; NewSized 1 SetZero; Assign 0 1; Delete 0; Delete 1] in
  (exists r, history 0 4 [] calls r [None; None] 1) /\
  exists h r, run 0 4 (fun _ => 7) (fun _ _ => true) init_state calls = Ok ((h, [None; None]), r) /\ in_use h = 1%nat.
Proof. exact (conj Proof.OwnCases.leak_permitted Proof.OwnCases.leak_run). Qed.
Print Assumptions assigned_vectors_freed_refuted.

(** A vector of [2 ^ 30] numbers has no memory at all. *)
Theorem large_vector_refuted : forall (F : Type) (zero : F) junk room x k,
  (forall n, room [] n = true) -> 0 <= k < 2 ^ 30 ->
  run zero 4 junk room init_state [NewSized (2 ^ 30) Undefined; Set_ 0 k x] = Fault Undef.
Proof. exact (fun F zero junk room x k => @Proof.Own.too_large F zero 4 junk room eq_refl x k eq_refl). Qed.
Print Assumptions large_vector_refuted.
