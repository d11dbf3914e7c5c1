(** Matrices and their memory: cases. *)
From Coq Require Import ZArith List Bool Lia.
From Verif.Base Require Import Prelude.
From Verif.Model Require Import Matrix MatOwn.
From Verif.Model Require Own.
From Verif.Spec Require Import MatrixSpec MatOwnSpec.
Import ListNotations.
Open Scope Z_scope.

Definition plenty (_ : Own.heap Z) (_ : Z) : bool := true.
Definition sevens (_ : nat) : Z := 7.

(** Matrices that are resized, swapped, copied and transposed. *)
Definition calls : list (call Z) :=
  [NewSized 2 2 SetZero DefaultStride; Put 0 0 1 5; Resize 0 2 3 CopyData DefaultStride; New; Swap 0 1; Get 1 0 1; Get 1 1 2;
   NewSized 3 2 Undefined StrideEqualNumCols; Copy 2 1 Trans; Get 2 1 0; CopyPart 2 1 0 1 0 0 1 2; Get 2 1 1;
   Resize 2 2 2 CopyData DefaultStride; Transpose 2; Get 2 1 1; Dims 2; Delete 2; Delete 0; Delete 1].

Definition answers : list (answer Z) :=
  [Done; Done; Done; Done; Done; Value 5; Value 0; Done; Done; Value 5; Done; Value 5; Done; Done; Value 5; Size 2 2; Done; Done; Done].

Lemma calls_run : run 0 4 sevens plenty init_state calls = Ok (([None; None; None; None], [None; None; None]), answers).
Proof. reflexivity. Qed.

Ltac size := split; [reflexivity|]; split; [intros row I; cbn in I; repeat destruct I as [<-|I]; try reflexivity; contradiction|discriminate].
Ltac at2 r := assert (r = 0 \/ r = 1) as [-> | ->] by lia.
Ltac at3 r := assert (r = 0 \/ r = 1 \/ r = 2) as [-> |[-> | ->]] by lia.
Ltac cells := split; [size|]; intros r c R C; (at2 r || at3 r); (at2 c || at3 c); reflexivity.
Ltac next w := split; [cbn [permitted]|exists w; split].

Lemma calls_permitted : history 0 4 [] calls answers [None; None; None].
Proof.
  unfold calls, answers. cbn [history].
  next [Some [[0; 0]; [0; 0]]].
  { right. split; [lia|]. split; [lia|]. vm_compute. discriminate. }
  { left. split; [reflexivity|]. exists [[0; 0]; [0; 0]]. split; [cells|reflexivity]. }
  next [Some [[0; 5]; [0; 0]]].
  { exists [[0; 0]; [0; 0]], 2, 2. split; [reflexivity|]. split; [size|lia]. }
  { split; [reflexivity|]. exists [[0; 0]; [0; 0]], [[0; 5]; [0; 0]], 2, 2. split; [reflexivity|]. split; [size|]. split; [reflexivity|cells]. }
  next [Some [[0; 5; 0]; [0; 0; 0]]].
  { split; [eexists; reflexivity|]. right. split; [lia|]. split; [lia|]. vm_compute. discriminate. }
  { exists [[0; 5]; [0; 0]]. split; [reflexivity|]. left. split; [reflexivity|]. exists [[0; 5; 0]; [0; 0; 0]]. split; [cells|reflexivity]. }
  next [Some [[0; 5; 0]; [0; 0; 0]]; Some []]. { exact I. } { split; reflexivity. }
  next [Some []; Some [[0; 5; 0]; [0; 0; 0]]].
  { split; eexists; reflexivity. }
  { split; [reflexivity|]. exists [[0; 5; 0]; [0; 0; 0]], []. repeat split. }
  next [Some []; Some [[0; 5; 0]; [0; 0; 0]]].
  { exists [[0; 5; 0]; [0; 0; 0]], 2, 3. split; [reflexivity|]. split; [size|lia]. }
  { split; [reflexivity|]. eexists _, _. split; [reflexivity|]. split; reflexivity. }
  next [Some []; Some [[0; 5; 0]; [0; 0; 0]]].
  { exists [[0; 5; 0]; [0; 0; 0]], 2, 3. split; [reflexivity|]. split; [size|lia]. }
  { split; [reflexivity|]. eexists _, _. split; [reflexivity|]. split; reflexivity. }
  next [Some []; Some [[0; 5; 0]; [0; 0; 0]]; Some [[7; 7]; [7; 7]; [7; 7]]].
  { right. split; [lia|]. split; [lia|]. vm_compute. split; discriminate. }
  { left. split; [reflexivity|]. exists [[7; 7]; [7; 7]; [7; 7]]. split; [|reflexivity]. split; [size|]. intros (X & _). discriminate. }
  next [Some []; Some [[0; 5; 0]; [0; 0; 0]]; Some [[0; 0]; [5; 0]; [0; 0]]].
  { exists [[7; 7]; [7; 7]; [7; 7]], [[0; 5; 0]; [0; 0; 0]], 3, 2. split; [reflexivity|]. split; [reflexivity|]. split; [size|]. split; [size|discriminate]. }
  { split; [reflexivity|]. exists [[0; 5; 0]; [0; 0; 0]], [[0; 0]; [5; 0]; [0; 0]], 3, 2. split; [reflexivity|]. split; [size|]. split; [reflexivity|cells]. }
  next [Some []; Some [[0; 5; 0]; [0; 0; 0]]; Some [[0; 0]; [5; 0]; [0; 0]]].
  { exists [[0; 0]; [5; 0]; [0; 0]], 3, 2. split; [reflexivity|]. split; [size|lia]. }
  { split; [reflexivity|]. eexists _, _. split; [reflexivity|]. split; reflexivity. }
  next [Some []; Some [[0; 5; 0]; [0; 0; 0]]; Some [[0; 0]; [0; 5]; [0; 0]]].
  { exists [[0; 0]; [5; 0]; [0; 0]], [[0; 5; 0]; [0; 0; 0]], 3, 2, 2, 3. split; [reflexivity|]. split; [reflexivity|]. split; [size|]. split; [size|]. split; [discriminate|lia]. }
  { split; [reflexivity|]. exists [[0; 0]; [5; 0]; [0; 0]], [[0; 5; 0]; [0; 0; 0]], [[0; 0]; [0; 5]; [0; 0]], 3, 2.
    split; [reflexivity|]. split; [reflexivity|]. split; [size|]. split; [reflexivity|cells]. }
  next [Some []; Some [[0; 5; 0]; [0; 0; 0]]; Some [[0; 0]; [0; 5]; [0; 0]]].
  { exists [[0; 0]; [0; 5]; [0; 0]], 3, 2. split; [reflexivity|]. split; [size|lia]. }
  { split; [reflexivity|]. eexists _, _. split; [reflexivity|]. split; reflexivity. }
  next [Some []; Some [[0; 5; 0]; [0; 0; 0]]; Some [[0; 0]; [0; 5]]].
  { split; [eexists; reflexivity|]. right. split; [lia|]. split; [lia|]. vm_compute. discriminate. }
  { exists [[0; 0]; [0; 5]; [0; 0]]. split; [reflexivity|]. left. split; [reflexivity|]. exists [[0; 0]; [0; 5]]. split; [cells|reflexivity]. }
  next [Some []; Some [[0; 5; 0]; [0; 0; 0]]; Some [[0; 0]; [0; 5]]].
  { exists [[0; 0]; [0; 5]], 2. split; [reflexivity|size]. }
  { split; [reflexivity|]. exists [[0; 0]; [0; 5]], [[0; 0]; [0; 5]], 2. split; [reflexivity|]. split; [size|]. split; [reflexivity|cells]. }
  next [Some []; Some [[0; 5; 0]; [0; 0; 0]]; Some [[0; 0]; [0; 5]]].
  { exists [[0; 0]; [0; 5]], 2, 2. split; [reflexivity|]. split; [size|lia]. }
  { split; [reflexivity|]. eexists _, _. split; [reflexivity|]. split; reflexivity. }
  next [Some []; Some [[0; 5; 0]; [0; 0; 0]]; Some [[0; 0]; [0; 5]]].
  { eexists; reflexivity. }
  { split; [reflexivity|]. exists [[0; 0]; [0; 5]], 2, 2. split; [reflexivity|]. split; [size|reflexivity]. }
  next [Some []; Some [[0; 5; 0]; [0; 0; 0]]; None]. { eexists; reflexivity. } { split; reflexivity. }
  next [None; Some [[0; 5; 0]; [0; 0; 0]]; None]. { eexists; reflexivity. } { split; reflexivity. }
  next [None; None; @None (list (list Z))]. { eexists; reflexivity. } { split; reflexivity. }
  reflexivity.
Qed.

(** A matrix that is transposed onto itself. *)
Lemma onto_itself : run 0 4 sevens plenty init_state
  [NewSized 2 2 SetZero DefaultStride; Put 0 0 1 5; Copy 0 0 Trans; Get 0 0 1; Get 0 1 0] =
  Ok (([Some [0; 0; 7; 7; 0; 0; 7; 7]], [Some (mk_owner (Some 0%nat) (mk_view 0 2 2 4))]), [Done; Done; Done; Value 0; Value 0]).
Proof. reflexivity. Qed.

(** Copies of a matrix. *)
Lemma copied_twice : forall cs, run 0 4 sevens plenty init_state ([NewSized 1 1 SetZero DefaultStride; NewCopied 0; Delete 0; Delete 1] ++ cs) = Fault Undef.
Proof. reflexivity. Qed.
Lemma assigned_twice : forall cs, run 0 4 sevens plenty init_state ([NewSized 1 1 SetZero DefaultStride; New; Assign 1 0; Delete 0; Delete 1] ++ cs) = Fault Undef.
Proof. reflexivity. Qed.
