(** Matrices own their memory (C94). *)
From Coq Require Import ZArith List.
From Verif.Base Require Import Prelude.
From Verif.Model Require Import Matrix MatOwn.
From Verif.Spec Require Import MatrixSpec MatOwnSpec.
From Verif.Spec Require OwnSpec.
From Verif.Proof Require MatOwn MatOwnCases.
Import ListNotations.
Open Scope Z_scope.

(** Whatever a program does, everything goes well up to the first call that is
    not permitted. The blocks in use are those of the matrices that have
    elements. *)
Theorem matrices_are_values : forall (F : Type) (zero : F) width junk room, element_size width -> forall cs,
  exists cs1 h ms r w,
    run zero width junk room init_state cs1 = Ok ((h, ms), r) /\ history zero width [] cs1 r w /\
    OwnSpec.in_use h = full w /\
    (cs = cs1 \/ exists c cs2, cs = cs1 ++ c :: cs2 /\ ~ permitted width w c).
Proof. exact @Proof.MatOwn.values. Qed.
Print Assumptions matrices_are_values.

Example matrices_case :
  let calls :=
    [NewSized 2 2 SetZero DefaultStride; Put 0 0 1 5; Resize 0 2 3 CopyData DefaultStride; New; Swap 0 1; Get 1 0 1; Get 1 1 2;
     NewSized 3 2 Undefined StrideEqualNumCols; Copy 2 1 Trans; Get 2 1 0; CopyPart 2 1 0 1 0 0 1 2; Get 2 1 1;
     Resize 2 2 2 CopyData DefaultStride; Transpose 2; Get 2 1 1; Dims 2; Delete 2; Delete 0; Delete 1] in
  let answers :=
    [Done; Done; Done; Done; Done; Value 5; Value 0; Done; Done; Value 5; Done; Value 5; Done; Done; Value 5; Size 2 2;
     Done; Done; Done] in
  history 0 4 [] calls answers [None; None; None] /\
  run 0 4 (fun _ => 7) (fun _ _ => true) init_state calls = Ok (([None; None; None; None], [None; None; None]), answers).
Proof. exact (conj Proof.MatOwnCases.calls_permitted Proof.MatOwnCases.calls_run). Qed.
Print Assumptions matrices_case.

(** Copies of a matrix that has elements, whether constructed or assigned, share
    its memory, which is then freed twice. *)
Theorem copied_matrix_refuted :
  (forall cs, run 0 4 (fun _ => 7) (fun _ _ => true) init_state
     ([NewSized 1 1 SetZero DefaultStride; NewCopied 0; Delete 0; Delete 1] ++ cs) = Fault Undef) /\
  forall cs, run 0 4 (fun _ => 7) (fun _ _ => true) init_state
     ([NewSized 1 1 SetZero DefaultStride; New; Assign 1 0; Delete 0; Delete 1] ++ cs) = Fault Undef.
Proof. exact (conj Proof.MatOwnCases.copied_twice Proof.MatOwnCases.assigned_twice). Qed.
Print Assumptions copied_matrix_refuted.

(** Copying a matrix transposed onto itself is not refused, and loses elements:
    the 5 is neither where it was nor where it should be. *)
Theorem transposed_onto_itself_refuted : exists s,
  run 0 4 (fun _ => 7) (fun _ _ => true) init_state
    [NewSized 2 2 SetZero DefaultStride; Put 0 0 1 5; Copy 0 0 Trans; Get 0 0 1; Get 0 1 0] =
  Ok (s, [Done; Done; Done; Value 0; Value 0]).
Proof. exact (ex_intro _ _ Proof.MatOwnCases.onto_itself). Qed.
Print Assumptions transposed_onto_itself_refuted.
